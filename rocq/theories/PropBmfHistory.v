(** C131: which packets the BMF plugin takes for copies. *)
From Verif Require Import Base BmfHistory BmfHistorySpec BmfHistoryProofs.

(** a packet is a copy exactly if one with its fingerprint came before, and the timer did
    not fire three seconds or more after the last of them *)
Theorem C131_copy : forall s l t c, paced s s l ->
  (answer l t c = true <-> exists T after, last_seen l T c after /\ forall P, In (Prune P) after -> P < T + 3000).
Proof. intros s l t c P. rewrite (answer_ok s l t c P). split; intros (T & after & H); exists T, after; exact H. Qed.
Print Assumptions C131_copy.
(** fingerprints 1 and 4096 share a list of the table *)
Example C131_copy_ex :
  let l := [Seen 4294960000 1; Prune 4294962000; Seen 4294963500 4096; Prune 4294965000; Seen 4294966000 2; Prune 4294968000] in
  paced 4294960000 4294960000 l /\ hash 1 = hash 4096 /\ last_seen l 4294966000 2 [Prune 4294968000] /\
  map (answer l 4294968500) [1; 2; 4096; 3] = [false; true; false; false] /\ map (answer (firstn 4 l) 4294965500) [1; 4096] = [false; true].
Proof.
  cbv zeta. split; [cbn; lia|]. split; [reflexivity|]. split; [split; [now exists [Seen 4294960000 1; Prune 4294962000; Seen 4294963500 4096; Prune 4294965000]|intros u [H|[]]; discriminate]|].
  split; vm_compute; reflexivity.
Qed.

(** so no copy that comes within three seconds is forwarded *)
Theorem C131_within : forall s l t c T after, paced s s (l ++ [Seen t c]) -> last_seen l T c after -> t < T + 3000 -> answer l t c = true.
Proof.
  intros s l t c T after P S L. assert (Q : paced s s l) by (eapply paced_pre; exact P). apply (answer_ok s l t c Q). eapply recent; eauto.
Qed.
Print Assumptions C131_within.
Example C131_within_ex : let l := [Seen 0 7; Prune 2000; Seen 2500 8] in paced 0 0 (l ++ [Seen 2999 7]) /\ last_seen l 0 7 [Prune 2000; Seen 2500 8] /\ answer l 2999 7 = true.
Proof. cbv zeta. split; [cbn; lia|]. split; [split; [now exists []|intros u [H|[H|[]]]; inversion H; lia]|vm_compute; reflexivity]. Qed.

(** and nothing is taken for a copy that was not seen before *)
Theorem C131_new : forall s l t c, paced s s l -> (forall u, ~ In (Seen u c) l) -> answer l t c = false.
Proof.
  intros s l t c P N. destruct (answer l t c) eqn:A; [|reflexivity]. apply (answer_ok s l t c P) in A. destruct A as (T & after & ((before & ->) & _) & _).
  destruct (N T). apply in_or_app. right. now left.
Qed.
Print Assumptions C131_new.
Example C131_new_ex : let l := [Seen 0 4096; Seen 10 4095] in paced 0 0 l /\ answer l 20 1 = false /\ answer l 20 4096 = true.
Proof. cbv zeta. split; [cbn; lia|split; vm_compute; reflexivity]. Qed.

(** false: a packet counts as a copy for three seconds only; with a timer of three seconds
    it is almost six *)
Theorem C131_six_refuted : exists l t c, paced 0 0 (l ++ [Seen t c]) /\ last_seen l 0 c [Prune 2999] /\ t = 5998 /\ answer l t c = true.
Proof.
  exists [Seen 0 7; Prune 2999], 5998, 7. split; [cbn; lia|]. split; [split; [now exists []|intros u [H|[]]; discriminate]|]. split; [reflexivity|vm_compute; reflexivity].
Qed.
Print Assumptions C131_six_refuted.

(** the same packet every two seconds, with the timer every three, for six seconds times [n] *)
Definition ex_every (c : Z) (n : nat) : list event :=
  flat_map (fun k => let t := 6000 * Z.of_nat k in [Seen t c; Seen (t + 2000) c; Prune (t + 3000); Seen (t + 4000) c; Prune (t + 6000)]) (seq 0 n).
Lemma every_paced : forall c n a cur last, 0 <= c < 4294967296 -> cur <= 6000 * Z.of_nat a -> last <= cur -> 6000 * Z.of_nat a - last < 2147000000 ->
  paced cur last (flat_map (fun k => let t := 6000 * Z.of_nat k in [Seen t c; Seen (t + 2000) c; Prune (t + 3000); Seen (t + 4000) c; Prune (t + 6000)]) (seq a n)).
Proof.
  intros c. induction n as [|n IH]; intros a cur last C A L B; [exact I|]. cbn [seq flat_map app paced].
  split; [lia|]. split; [exact C|]. split; [lia|]. split; [exact C|]. split; [lia|]. split; [lia|]. split; [lia|]. split; [exact C|]. split; [lia|]. split; [lia|].
  apply IH; [exact C|lia|lia|lia].
Qed.
(** false: of a packet sent again and again one in three seconds gets through; with a copy
    every two seconds all but the first are dropped, for ever *)
Theorem C131_starved_refuted : exists c, forall n, (0 < n)%nat ->
  paced 0 0 (ex_every c n) /\ hd (Prune 0) (ex_every c n) = Seen 0 c /\ answer (ex_every c n) (6000 * Z.of_nat n) c = true.
Proof.
  exists 7. intros n N. assert (P : paced 0 0 (ex_every 7 n)) by (apply every_paced; lia). split; [exact P|]. split; [destruct n; [lia|reflexivity]|].
  apply (answer_ok 0 _ _ _ P). destruct n as [|n]; [lia|]. unfold ex_every. rewrite seq_S, flat_map_app. cbn [flat_map]. rewrite app_nil_r, Nat.add_0_l.
  set (t := 6000 * Z.of_nat n). exists (t + 4000), [Prune (t + 6000)]. split; [split|].
  - cbv zeta. fold t. eexists (_ ++ [Seen t 7; Seen (t + 2000) 7; Prune (t + 3000)]). rewrite <- app_assoc. reflexivity.
  - intros u [H|[]]. discriminate.
  - intros Q [H|[]]. inversion H. lia.
Qed.
Print Assumptions C131_starved_refuted.
