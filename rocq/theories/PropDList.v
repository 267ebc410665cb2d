(** C26: circular doubly linked lists (src/common/list.c). *)
From Verif Require Import Base DList DListSpec DListProofs.
From Coq Require Import Permutation.

(** C26: every legal sequence of calls runs without touching NULL and leaves
    every list holding the sequence the calls mean. *)
Theorem C26_lists_are_sequences : forall l h w w', rep h w -> lmeans_all w l w' ->
  exists h', lrun h l = Some h' /\ rep h' w'.
Proof. exact run_sound. Qed.
Print Assumptions C26_lists_are_sequences.

Example C26_seq_ex : lmeans_all [] [LInit 1; LAfter 1 3; LAfter 3 4; LBefore 4 5; LRemove 3] [(1, [5; 4])] /\ rep heap0 [].
Proof.
  split; [|exact rep0].
  eapply lma_cons; [apply lm_init; [lia|intros []]|].
  eapply lma_cons; [apply (lm_after_head _ [] 1 [] 3); [reflexivity|lia|simpl; lia]|].
  eapply lma_cons; [apply (lm_after _ [] 1 [] 3 [] 4); [reflexivity|lia|simpl; lia]|].
  eapply lma_cons; [apply (lm_before _ [] 1 [3] 4 [] 5); [reflexivity|lia|simpl; lia]|].
  eapply lma_cons; [apply (lm_remove _ [] 1 [] 3 [5; 4]); reflexivity|]. apply lma_nil.
Qed.

(** C26: what the user sees: forward and backward traversal, emptiness test,
    membership flag. *)
Theorem C26_traversal : forall h w hd l, rep h w -> In (hd, l) w ->
  walk (S (length l)) h hd hd = l /\ walk_back (S (length l)) h hd hd = rev l /\
  list_is_empty hd h = Some (match l with [] => true | _ => false end) /\
  (forall x, In x l -> list_node_on_list x h = Some true).
Proof. exact rep_walks. Qed.
Print Assumptions C26_traversal.

Example C26_traversal_ex : match lrun heap0 [LInit 1; LAfter 1 3; LAfter 3 4; LBefore 4 5] with
  | Some h => walk 4 h 1 1 = [3; 5; 4] /\ walk_back 4 h 1 1 = [4; 5; 3] | None => False end.
Proof. vm_compute. split; reflexivity. Qed.

(** C26: a removed node is off every list. *)
Theorem C26_removed : forall h hd l1 d l2 w, rep h ((hd, l1 ++ d :: l2) :: w) ->
  exists h', list_remove d h = Some h' /\ list_node_on_list d h' = Some false.
Proof. exact removed_off_list. Qed.
Print Assumptions C26_removed.

Example C26_removed_ex : exists h, rep h [(1, [] ++ 3 :: [])].
Proof.
  destruct (run_sound [LInit 1; LAfter 1 3] heap0 [] [(1, [3])] rep0) as (h & _ & R); [|exists h; exact R].
  eapply lma_cons; [apply lm_init; [lia|intros []]|].
  eapply lma_cons; [apply (lm_after_head _ [] 1 [] 3); [reflexivity|lia|simpl; lia]|]. apply lma_nil.
Qed.

(** C51: merging does not append at the end as documented (src/common/list.h
    line 69): the merged elements come first. *)
Theorem C51_merge_at_end_refuted : exists h h' h1 l1 h2 l2, rep h [(h1, l1); (h2, l2)] /\
  list_merge h1 h2 h = Some h' /\ walk (S (length (l1 ++ l2))) h' h1 h1 <> l1 ++ l2.
Proof. exact merge_front. Qed.
Print Assumptions C51_merge_at_end_refuted.
