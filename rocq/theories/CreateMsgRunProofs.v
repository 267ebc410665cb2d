(** Proofs about sending topology messages round by round. *)
From Verif Require Import Base Bytes SchedTime Compare Tc TcSpec TcBase TcFrag NetBuf BuildMsg BuildMsgSpec BuildMsgProofs LinkSetProofs CreateMsg CreateMsgSpec CreateMsgProofs PropBuildMsg.

(** the TTL of a round and the index afterwards *)
Lemma ttl_ok fish idx : 0 <= idx <= 8 ->
  lq_tc_ttl fish idx = Some (if fish then nth (Z.to_nat (idx mod 8)) fisheye 0 else 255, if fish then idx mod 8 + 1 else idx).
Proof.
  intros H. unfold lq_tc_ttl. destruct fish; [|reflexivity]. cbv zeta.
  assert (E : (if idx >=? 8 then 0 else idx) = idx mod 8). { destruct (Z.geb_spec idx 8); [assert (idx = 8) as -> by lia; reflexivity|now rewrite Z.mod_small by lia]. }
  rewrite E. assert (Hm := Z.mod_pos_bound idx 8 ltac:(lia)). set (i := idx mod 8) in *. clearbody i. replace (0 <=? i) with true by lia.
  assert (C : i = 0 \/ i = 1 \/ i = 2 \/ i = 3 \/ i = 4 \/ i = 5 \/ i = 6 \/ i = 7) by lia.
  destruct C as [->|[->|[->|[->|[->|[->|[->| ->]]]]]]]; reflexivity.
Qed.

Definition sends (e : tenv) (red now : Z) (l : list onb) (g : tcgen) : bool :=
  match create_lq_tc e red l with [] => negb (g_empty g) || negb (isTimedOut now (g_timer g)) | _ => true end.
Definition tc_pieces (e : tenv) (fish : bool) (vt : Z) (orig : list Z) (ansn : Z) (g : tcgen) (seq : Z) (frags : list (list (list Z * list Z))) : list tmsg :=
  pieces (calculate_border_flag (ips e)) vt orig (if fish then nth (Z.to_nat (g_ttl g mod 8)) fisheye 0 else 255) 0 seq ansn 255 frags.

Lemma round_ok e red fish vt orig ansn now wait l g s : blen orig = ips e -> 0 <= ansn < 65536 -> table_ok e l -> ready (16 + 2 * ips e) s -> 0 <= g_ttl g <= 8 ->
  exists s' g', output_lq_tc e red fish vt orig ansn now wait l g s = Some (s', Some g') /\
    ready (16 + 2 * ips e) s' /\ g_ttl g' = (if fish then g_ttl g mod 8 + 1 else g_ttl g) /\
    g_empty g' = (match create_lq_tc e red l with [] => true | _ => false end) /\
    g_timer g' = (match create_lq_tc e red l with [] => if g_empty g then g_timer g else getTimestamp now wait | _ => g_timer g end) /\
    if sends e red now l g
    then exists frags, delivers s s' (map enc_tc (tc_pieces e fish vt orig ansn g (s_seq s) frags)) /\ concat frags = map bare (create_lq_tc e red l) /\
           frags <> [] /\ (create_lq_tc e red l <> [] -> Forall (fun f => f <> []) frags) /\ (create_lq_tc e red l = [] -> frags = [[]])
    else s' = s.
Proof.
  intros Ho Ha T Rd Hi. unfold output_lq_tc. rewrite (ttl_ok fish (g_ttl g) Hi). cbv zeta.
  destruct (create_bare e red l T) as (Eb & _ & Wf & _). unfold sends.
  set (es := create_lq_tc e red l) in *. set (ttl := if fish then nth (Z.to_nat (g_ttl g mod 8)) fisheye 0 else 255).
  destruct (C32_lq_tc (te_v6 e) vt orig ttl ansn (map bare es) s) as (s' & frags & E & D & _ & Cc & Nf & X1 & X2 & Rd').
  { exact Ho. } { exact Ha. } { eapply Forall_impl; [|exact Wf]. cbn. intros x (A & B & _). split; [apply A|unfold blen; lia]. } { exact Rd. }
  rewrite Eb in E.
  assert (X : (exists frags, delivers s s' (map enc_tc (tc_pieces e fish vt orig ansn g (s_seq s) frags)) /\ concat frags = map bare es /\
           frags <> [] /\ (es <> [] -> Forall (fun f => f <> []) frags) /\ (es = [] -> frags = [[]]))).
  { exists frags. split; [exact D|]. split; [exact Cc|]. split; [exact Nf|]. split; [intros Hn; apply X1; intros Q; apply Hn; now destruct es|intros Q; apply X2; now rewrite Q]. }
  clearbody es. destruct es as [|x es'].
  - destruct (g_empty g) eqn:Eg; cbn [negb orb].
    + destruct (isTimedOut now (g_timer g)); cbn [negb].
      * exists s. eexists. split; [reflexivity|]. cbn [g_ttl g_empty g_timer]. auto 10.
      * exists s'. eexists. split; [now rewrite (bind_M _ _ _ _ _ E)|]. cbn [g_ttl g_empty g_timer]. auto 10.
    + exists s'. eexists. split; [now rewrite (bind_M _ _ _ _ _ E)|]. cbn [g_ttl g_empty g_timer]. auto 10.
  - exists s'. eexists. split; [now rewrite (bind_M _ _ _ _ _ E)|]. cbn [g_ttl g_empty g_timer]. auto 10.
Qed.

Lemma nothing_nil e red l : nothing red l -> create_lq_tc e red l = [].
Proof.
  intros H. destruct (create_lq_tc e red l) as [|x r] eqn:E; [reflexivity|]. exfalso. assert (I : In x (create_lq_tc e red l)) by (rewrite E; now left).
  apply create_in in I. destruct I as (n & I1 & I2). apply entry_spec in I2. now apply (H n I1).
Qed.
Lemma something_cons e red l : (exists n, In n l /\ advertise red n) -> create_lq_tc e red l <> [].
Proof.
  intros (n & H1 & H2) E. assert (I : In (o_addr n, quality n ++ [0; 0]) (create_lq_tc e red l)) by (apply create_in; exists n; split; [exact H1|]; apply entry_spec; auto).
  rewrite E in I. destruct I.
Qed.

Definition round_ok_in (e : tenv) (r : round) : Prop := 0 <= fst (fst r) < 65536 /\ table_ok e (snd r).
Lemma rounds_ok e red fish vt orig wait rs : blen orig = ips e -> Forall (round_ok_in e) rs -> forall g s, ready (16 + 2 * ips e) s -> 0 <= g_ttl g <= 8 ->
  exists s' g', rounds e red fish vt orig wait rs g s = Some (s', g') /\ ready (16 + 2 * ips e) s' /\ 0 <= g_ttl g' <= 8 /\
    (if fish then g_ttl g' mod 8 = (g_ttl g + Z.of_nat (length rs)) mod 8 else True) /\
    (g_empty g = true -> Forall (fun r => nothing red (snd r)) rs -> g_empty g' = true /\ g_timer g' = g_timer g).
Proof.
  intros Ho F. induction rs as [|[[ansn t] l] rs IH]; intros g s Rd Hi.
  - exists s, g. cbn [rounds length]. rewrite Z.add_0_r. split; [reflexivity|]. split; [exact Rd|]. split; [exact Hi|]. split; [destruct fish; auto|auto].
  - inversion F as [|? ? (F1 & F2) F3]; subst. cbn [fst snd] in F1, F2. cbn [rounds].
    destruct (round_ok e red fish vt orig ansn (t mod 4294967296) wait l g s Ho F1 F2 Rd Hi) as (s1 & g1 & E & R1 & T1 & E1 & M1 & _). rewrite E.
    assert (Hi1 : 0 <= g_ttl g1 <= 8). { rewrite T1. destruct fish; [|exact Hi]. pose proof (Z.mod_pos_bound (g_ttl g) 8 ltac:(lia)). lia. }
    destruct (IH F3 g1 s1 R1 Hi1) as (s' & g' & E' & R' & T' & Q' & W'). exists s', g'. split; [exact E'|]. split; [exact R'|]. split; [exact T'|]. split.
    + destruct fish; [|exact I]. rewrite Q', T1. cbn [length]. replace (g_ttl g mod 8 + 1 + Z.of_nat (length rs)) with (g_ttl g mod 8 + (1 + Z.of_nat (length rs))) by lia.
      rewrite Zplus_mod_idemp_l. f_equal. lia.
    + intros Ge Fn. inversion Fn as [|? ? Fn1 Fn2]; subst. cbn [snd] in Fn1. rewrite (nothing_nil e red l Fn1) in E1, M1. rewrite Ge in M1. destruct (W' E1 Fn2) as (A & B). split; [exact A|congruence].
Qed.
