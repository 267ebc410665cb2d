(** C124 and C125: the options of the interfaces. *)
From Coq Require Import String.
From Verif Require Import Base Regex ConfIf ConfIfSpec ConfIfProofs.

(** C124: after reading a configuration file there is one interface for every name in it,
    and each of its option bytes is what the last own statement says, otherwise what the
    last block of defaults says, otherwise the built-in value; if no block gives a name
    twice *)
Theorem C124_option_partial : forall bs, Forall wf_block bs ->
  exists s, run bs = Some s /\
    NoDup (map p_name (t_ifs s)) /\
    (forall n, In (Some n) (map p_name (t_ifs s)) <-> named n bs) /\
    (forall i n p, In i (t_ifs s) -> p_name i = Some n -> opt_byte p ->
       nth p (fst (effective s i)) 0 = wanted bs n p).
Proof.
  intros bs W. destruct (run_ok bs W) as (s & E & A). exists s. split; [exact E|].
  split; [apply (a_nodup _ _ A)|]. split; [apply (a_in _ _ A)|].
  intros i n p I N P. exact (effective_byte bs s i n p A I N P).
Qed.
Print Assumptions C124_option_partial.

(** the file of the example: defaults, two blocks for "a", the defaults again *)
Definition file_ex : list block :=
  [BDef [SSet 80 [1; 2; 3; 4]];
   BIf [str "a"; str "b"] [SSet 84 [9; 9; 9; 9]; SMult (5, 32768)];
   BIf [str "a"] [SSet 84 [7; 7]; SMult (0, 100)];
   BDef [SSet 88 [5; 6; 7; 8]; SMult (5, 1000); SMult (6, 2000)]].

Example C124_ex : exists s, Forall wf_block file_ex /\ run file_ex = Some s /\
  map p_name (t_ifs s) = [Some (str "a"); Some (str "b")] /\
  map (fun i => firstn 12 (skipn 80 (fst (effective s i)))) (t_ifs s) =
    [[0; 0; 0; 64; 7; 7; 9; 9; 5; 6; 7; 8]; [0; 0; 0; 64; 9; 9; 9; 9; 5; 6; 7; 8]].
Proof.
  destruct (run file_ex) as [s|] eqn:E; [|vm_compute in E; discriminate]. exists s.
  split; [|split; [reflexivity|vm_compute in E; inversion E; split; vm_compute; reflexivity]].
  assert (N1 : NoDup [str "a"]) by (apply NoDup_cons; [intros []|apply NoDup_nil]).
  assert (N2 : NoDup [str "a"; str "b"]).
  { apply NoDup_cons; [intros [H|[]]; vm_compute in H; discriminate|].
    apply NoDup_cons; [intros []|apply NoDup_nil]. }
  apply Forall_cons; [|apply Forall_cons; [|apply Forall_cons; [|apply Forall_cons; [|apply Forall_nil]]]];
    first [split; [assumption|]|idtac];
    repeat (apply Forall_cons; [first [exact I|left; cbn; lia]|]); apply Forall_nil.
Qed.

(** a name given twice: the statements of the block go to another interface too *)
Theorem C124_twice_refuted : exists bs s i p, run bs = Some s /\ In i (t_ifs s) /\
  p_name i = Some (str "b") /\ opt_byte p /\
  nth p (fst (effective s i)) 0 <> wanted bs (str "b") p.
Proof.
  exists [BIf [str "b"] []; BIf [str "a"; str "a"] [SSet 84 [9]]].
  eexists; eexists; exists 84%nat. split; [reflexivity|]. split; [right; left; reflexivity|].
  split; [reflexivity|]. split; [left; lia|]. vm_compute. discriminate.
Qed.
Print Assumptions C124_twice_refuted.

(** or to no interface at all: a null pointer is followed *)
Theorem C124_null_refuted : exists n, run [BIf [n; n] [SSet 84 [9]]] = None.
Proof. exists (str "a"). reflexivity. Qed.
Print Assumptions C124_null_refuted.

(** C125: the multiplier for a neighbour is the own one for its address, otherwise that of
    the defaults for its address, otherwise the own one for all, otherwise that of the
    defaults for all, otherwise 1.0; if no address is given twice and no multiplier is
    zero *)
Theorem C125_multiplier_partial : forall bs, Forall wf_block bs ->
  exists s, run bs = Some s /\
    forall i n a, In i (t_ifs s) -> p_name i = Some n -> a <> 0 ->
      let own := mults_of (own_body n bs) in
      let defs := mults_of (match def_body bs with Some b => b | None => [] end) in
      plain own -> plain defs ->
      loss_mult (snd (effective s i)) a = wanted_mult own defs a.
Proof.
  intros bs W. destruct (run_ok bs W) as (s & E & A). exists s. split; [exact E|].
  intros i n a I N Z0 own defs P Q. rewrite (effective_mults bs s i n A I N).
  apply loss_mult_ok; auto.
Qed.
Print Assumptions C125_multiplier_partial.

Example C125_ex : exists s, run file_ex = Some s /\
  map (fun i => map (loss_mult (snd (effective s i))) [5; 6; 7]) (t_ifs s) =
    [[32768; 2000; 100]; [32768; 2000; 65536]] /\
  plain (mults_of (own_body (str "a") file_ex)) /\
  plain (mults_of (match def_body file_ex with Some b => b | None => [] end)).
Proof.
  destruct (run file_ex) as [s|] eqn:E; [|vm_compute in E; discriminate]. exists s.
  split; [reflexivity|]. split; [vm_compute in E; inversion E; vm_compute; reflexivity|].
  clear E. split; vm_compute.
  - split; [|repeat (apply Forall_cons || apply Forall_nil); discriminate].
    apply NoDup_cons; [intros [H|[]]; discriminate|]. apply NoDup_cons; [intros []|apply NoDup_nil].
  - split; [|repeat (apply Forall_cons || apply Forall_nil); discriminate].
    apply NoDup_cons; [intros [H|[]]; discriminate|]. apply NoDup_cons; [intros []|apply NoDup_nil].
Qed.

(** a multiplier of zero counts as 1.0 *)
Theorem C125_zero_refuted : exists bs s i a, Forall wf_block bs /\ run bs = Some s /\ In i (t_ifs s) /\
  p_name i = Some (str "a") /\ mults_of (own_body (str "a") bs) = [(a, 0)] /\
  loss_mult (snd (effective s i)) a = 65536.
Proof.
  exists [BIf [str "a"] [SMult (5, 0)]]. eexists; eexists; exists 5.
  split; [|split; [reflexivity|split; [left; reflexivity|split; [reflexivity|split; reflexivity]]]].
  apply Forall_cons; [|apply Forall_nil]. split.
  - apply NoDup_cons; [intros []|apply NoDup_nil].
  - apply Forall_cons; [exact I|apply Forall_nil].
Qed.
Print Assumptions C125_zero_refuted.

(** of two multipliers for one neighbour the first wins, of two multipliers for all
    neighbours the last *)
Theorem C125_twice_refuted : exists bs s i v w, v <> w /\ Forall wf_block bs /\
  run bs = Some s /\ In i (t_ifs s) /\
  bs = [BIf [str "a"] [SMult (5, v); SMult (5, w); SMult (0, v); SMult (0, w)]] /\
  loss_mult (snd (effective s i)) 5 = v /\ loss_mult (snd (effective s i)) 6 = w.
Proof.
  eexists; eexists; eexists; exists 1000, 2000.
  split; [discriminate|]. split; [|split; [|split; [|split; [reflexivity|]]]].
  - apply Forall_cons; [|apply Forall_nil]. split.
    + apply NoDup_cons; [intros []|apply NoDup_nil].
    + repeat (apply Forall_cons; [exact I|]). apply Forall_nil.
  - reflexivity.
  - left; reflexivity.
  - split; reflexivity.
Qed.
Print Assumptions C125_twice_refuted.
