(** C129: the routes for the niit devices. *)
From Verif Require Import Base IpCalc Niit NiitSpec NiitProofs.

(** ::ffff:10.1.0.0/112, ::ffff:10.2.0.0/112 and 2001:db8::/32 *)
Definition ex_m (b n : Z) : prefix := ([0; 0; 0; 0; 0; 0; 0; 0; 0; 0; 255; 255; 10; b; 0; 0], n).
Definition ex_p : prefix := ([32; 1; 13; 184; 0; 0; 0; 0; 0; 0; 0; 0; 0; 0; 0; 0], 32).

(** whatever happens, with devices that keep their index, no interface lost and the HNAs
    of the start, the routes are right after it *)
Theorem C129_routes_partial : forall i4 u4 i6 u6 hna l,
  i4 <> i6 -> Forall v6 hna -> Forall (tame i4 i6) l -> right (run (start (Some (i4, u4)) (Some (i6, u6)) hna) l).
Proof.
  intros i4 u4 i6 u6 hna l NE F T. apply (inv_right i4 i6). apply run_ok; [exact NE| |exact T]. now apply start_ok.
Qed.
Print Assumptions C129_routes_partial.
Example C129_routes_ex :
  let l := [EInsert (ex_m 1 112); EAdd (ex_m 1 112) true; EInsert ex_p; EAdd ex_p true; EInsert (ex_m 2 112);
            EAdd (ex_m 2 112) true; EDev4 (Some (7, false)); EFlush (ex_m 2 112) true; EDev4 (Some (7, true))] in
  Forall v6 [ex_m 9 104; ex_p] /\ Forall (tame 7 8) l /\
  let s k := run (start (Some (7, true)) (Some (8, true)) [ex_m 9 104; ex_p]) (firstn k l) in
  (k_46 (s 6%nat), k_64 (s 6%nat)) = ([([10; 2; 0; 0], 16); ([10; 1; 0; 0], 16)], [ex_m 9 104]) /\
  (k_46 (s 8%nat), k_64 (s 8%nat)) = ([], []) /\
  (k_46 (s 9%nat), k_64 (s 9%nat)) = ([([10; 1; 0; 0], 16)], [ex_m 9 104]).
Proof.
  assert (V : v6 (ex_m 9 104) /\ v6 (ex_m 1 112) /\ v6 (ex_m 2 112) /\ v6 ex_p) by (repeat split; cbn; lia).
  destruct V as (V1 & V2 & V3 & V4). cbv zeta. split; [|split; [|split; [|split]]]; try (vm_compute; reflexivity).
  - constructor; [exact V1|]. constructor; [exact V4|constructor].
  - repeat (apply Forall_cons; [first [exact V2|exact V3|exact V4|exact I|reflexivity]|]). constructor.
Qed.

(** false when an interface of the daemon is lost: the entries with it are dropped without
    the deletion of their route towards niit4to6 *)
Theorem C129_interface_refuted : exists p l,
  v6 p /\ ~ right (run (start (Some (7, true)) (Some (8, true)) []) (l ++ [ELost p])) /\ Forall (tame 7 8) l.
Proof.
  exists (ex_m 1 112), [EInsert (ex_m 1 112); EAdd (ex_m 1 112) true]. assert (V : v6 (ex_m 1 112)) by (repeat split; cbn; lia).
  split; [exact V|]. split; [|constructor; [exact V|constructor; [exact I|constructor]]].
  intros (R & _). destruct R as (_ & R & _); [split; eexists; vm_compute; reflexivity|].
  destruct (R ([10; 1; 0; 0], 16)) as (p & b & H & _); [vm_compute; auto|]. vm_compute in H. exact H.
Qed.
Print Assumptions C129_interface_refuted.

(** false when the HNAs change while the daemon runs: one that is added gets no route, one
    that is removed keeps its route *)
Theorem C129_hna_refuted : exists p q,
  v6 p /\ v6 q /\
  (let s := run (start (Some (7, true)) (Some (8, true)) []) [EHna p true] in ~ right s /\ In p (n_hna s) /\ k_64 s = []) /\
  (let s := run (start (Some (7, true)) (Some (8, true)) [q]) [EHna q false] in ~ right s /\ n_hna s = [] /\ In q (k_64 s)).
Proof.
  exists (ex_m 1 112), (ex_m 2 112). split; [repeat split; cbn; lia|]. split; [repeat split; cbn; lia|]. cbv zeta. split; split.
  - intros (R & _). destruct R as (_ & _ & R); [split; eexists; vm_compute; reflexivity|]. specialize (R (ex_m 1 112)).
    destruct R as (_ & R). assert (H : In (ex_m 1 112) []); [|destruct H]. apply R. split; [vm_compute; auto|].
    exists ([10; 1; 0; 0], 16). repeat split; cbn; lia.
  - split; [vm_compute; auto|reflexivity].
  - intros (R & _). destruct R as (_ & _ & R); [split; eexists; vm_compute; reflexivity|]. specialize (R (ex_m 2 112)).
    destruct R as (R & _). destruct R as (R & _); vm_compute; auto.
  - split; [vm_compute; reflexivity|vm_compute; auto].
Qed.
Print Assumptions C129_hna_refuted.

(** false when a device is made anew with another index, or is only made after the start *)
Theorem C129_device_refuted : exists hna,
  Forall v6 hna /\
  (let s := run (start (Some (7, true)) (Some (8, true)) hna) [EDev6 None; EDev6 (Some (9, true))] in both_up s /\ k_64 s = [] /\ ~ right s) /\
  (let s := run (start (Some (7, true)) None hna) [EDev6 (Some (8, true))] in both_up s /\ k_64 s = [] /\ ~ right s).
Proof.
  exists [ex_m 1 112]. split; [constructor; [repeat split; cbn; lia|constructor]|]. cbv zeta.
  assert (M : mapped (ex_m 1 112)) by (exists ([10; 1; 0; 0], 16); repeat split; cbn; lia).
  assert (G : forall s, both_up s -> n_hna s = [ex_m 1 112] -> k_64 s = [] -> ~ right s).
  { intros s U H K (R & _). destruct (R U) as (_ & _ & R'). specialize (R' (ex_m 1 112)). rewrite H, K in R'. apply R'. split; [now left|exact M]. }
  split.
  - assert (U : both_up (run (start (Some (7, true)) (Some (8, true)) [ex_m 1 112]) [EDev6 None; EDev6 (Some (9, true))])) by (split; eexists; vm_compute; reflexivity).
    split; [exact U|]. split; [reflexivity|]. apply G; [exact U|reflexivity|reflexivity].
  - assert (U : both_up (run (start (Some (7, true)) None [ex_m 1 112]) [EDev6 (Some (8, true))])) by (split; eexists; vm_compute; reflexivity).
    split; [exact U|]. split; [reflexivity|]. apply G; [exact U|reflexivity|reflexivity].
Qed.
Print Assumptions C129_device_refuted.
