(** C21: selection of the best path to a prefix. *)
From Verif Require Import Base Compare RtBest RtBestSpec RtBestProofs.
From Coq Require Import Permutation.

(** C21: the selected path is in the set and no other path is preferred to it:
    lower cost, then fewer hops, then lower originator address.  The cost of the
    path that is the current default gateway counts scaled.  There is only one
    such path, and any other order of the same set gives the same one. *)
Theorem C21_best_path : forall (scale : Z -> Z) (isgw : list Z -> bool) n ps, one_each n ps -> ps <> [] ->
  let c := fun p : rpath => if isgw (rp_orig p) then scale (rp_cost p) else rp_cost p in
  exists p, rt_best scale isgw ps = Some p /\ is_best c ps p /\ (forall q, is_best c ps q -> q = p) /\
  forall ps', Permutation ps ps' -> rt_best scale isgw ps' = Some p.
Proof.
  intros scale isgw n ps O NE c. destruct (rt_best_ok scale isgw n ps O NE) as (p & E & B). exists p. split; [exact E|]. split; [exact B|].
  split; [intros q Hq; exact (best_unique scale isgw n c ps q p O Hq B)|].
  intros ps' P. assert (O' : one_each n ps').
  { destruct O as (N & F). split; [apply (Permutation_NoDup (Permutation_map rp_orig P) N)|]. rewrite Forall_forall in *. intros q Hq. apply F. apply (Permutation_in _ (Permutation_sym P) Hq). }
  destruct (rt_best_ok scale isgw n ps' O') as (p' & E' & B'); [intros ->; apply Permutation_sym, Permutation_nil in P; auto|].
  rewrite E'. f_equal. apply (best_unique scale isgw n c ps p' p O); [|exact B]. destruct B' as (B1 & B2). split; [apply (Permutation_in _ (Permutation_sym P) B1)|].
  intros q Hq. apply B2. apply (Permutation_in _ P Hq).
Qed.
Print Assumptions C21_best_path.

(** C21: away from the default gateway the costs are the plain ones *)
Theorem C21_plain : forall (scale : Z -> Z) (isgw : list Z -> bool) n ps, one_each n ps -> ps <> [] -> (forall p, In p ps -> isgw (rp_orig p) = false) ->
  exists p, rt_best scale isgw ps = Some p /\ is_best rp_cost ps p.
Proof.
  intros scale isgw n ps O NE G. destruct (rt_best_ok scale isgw n ps O NE) as (p & E & B1 & B2). exists p. split; [exact E|]. split; [exact B1|].
  intros q Hq Q. apply (B2 q Hq). unfold preferred, eff_cost in *. now rewrite (G q Hq), (G p B1).
Qed.
Print Assumptions C21_plain.

(** C21: a prefix of length 0 keeps its gateway while another one is cheaper: with a
    scaling by one half the gateway at cost 100 stays against one at cost 60. *)
Theorem C21_gateway_refuted : exists scale isgw n ps p, one_each n ps /\ rt_best scale isgw ps = Some p /\ ~ is_best rp_cost ps p.
Proof.
  exists (fun x => x / 2), (fun o => Z.eqb (hd 0 o) 1), 1%nat, [mkRp [1] [9] 3 2 100 0; mkRp [2] [8] 3 2 60 0], (mkRp [1] [9] 3 2 100 0).
  split; [split; [repeat constructor; cbn; intuition congruence|repeat constructor]|]. split; [reflexivity|].
  intros (_ & B). apply (B (mkRp [2] [8] 3 2 60 0)); [cbn; auto|]. left. cbn. lia.
Qed.
Print Assumptions C21_gateway_refuted.

Example C21_ex : exists ps, one_each 2 ps /\ length ps = 4%nat /\
  rt_best (fun x => x) (fun _ => false) ps = Some (mkRp [10; 2] [9] 3 2 60 0) /\ rt_best (fun x => x) (fun _ => false) (rev ps) = Some (mkRp [10; 2] [9] 3 2 60 0).
Proof.
  exists [mkRp [10; 1] [9] 3 3 60 0; mkRp [10; 2] [9] 3 2 60 0; mkRp [10; 4] [8] 3 2 60 0; mkRp [10; 3] [8] 3 1 90 0].
  split; [split; [repeat constructor; cbn; intuition congruence|repeat constructor]|]. repeat split; reflexivity.
Qed.
