From Coq Require Import String Permutation Sorted.
From Verif Require Import Base Bytes NetBuf Parser ParserProofs Compare CompareProofs SecureProofs Regex NameSvc NameSvcSpec NameSvcProofs NameMsgProofs.

(** ** Building messages *)
Lemma wr_none b i d : blen b < i + blen d -> wr b i d = None.
Proof. intros H. unfold wr. destruct ((0 <=? i) && (i + blen d <=? blen b)) eqn:E; [lia|reflexivity]. Qed.
Lemma gen_ok c vt seqno buf es : blen buf = 10240 -> blen (f_main c) = ipsize c -> 12 + ipsize c + blen (flat_map create es) <= 10240 ->
  ns_gen c vt seqno buf es = Some ([130; vt] ++ net16 (12 + ipsize c + blen (flat_map create es)) ++ f_main c ++ [255; 0] ++ net16 seqno ++ net16 1 ++ net16 (Z.of_nat (length es)) ++ flat_map create es).
Proof.
  intros Lb Lm T. set (body := flat_map create es) in *. pose proof (blen_nonneg body). assert (Si : ipsize c = 4 \/ ipsize c = 16) by (unfold ipsize; destruct (f_v6 c); auto).
  destruct (split_exact buf 2) as (x1 & r1 & -> & L1 & R1); [lia|]. destruct (split_exact r1 2) as (x2 & r2 & -> & L2 & R2); [lia|].
  destruct (split_exact r2 (ipsize c + 4)) as (x3 & r3 & -> & L3 & R3); [lia|]. destruct (split_exact r3 2) as (x4 & r4 & -> & L4 & R4); [lia|].
  destruct (split_exact r4 2) as (x5 & r5 & -> & L5 & R5); [lia|]. destruct (split_exact r5 (blen body)) as (x6 & r6 & -> & L6 & R6); [lia|].
  unfold ns_gen. rewrite (wr_is _ [] x1 (x2 ++ x3 ++ x4 ++ x5 ++ x6 ++ r6)); [|reflexivity|reflexivity|now rewrite L1]. rewrite app_nil_l.
  assert (Ln : blen (net16 seqno) = 2) by reflexivity.
  rewrite (wr_is _ ([130; vt] ++ x2) x3 (x4 ++ x5 ++ x6 ++ r6)); [|now rewrite <- !app_assoc|rewrite blen_app, L2; reflexivity|rewrite !blen_app, !blen_net16, L3; change (blen [255; 0]) with 2; lia].
  unfold encap. fold body. set (H1 := f_main c ++ [255; 0] ++ net16 seqno). assert (LH : blen H1 = ipsize c + 4) by (unfold H1; rewrite !blen_app, !blen_net16; change (blen [255; 0]) with 2; lia).
  rewrite (wr_is _ ([130; vt] ++ x2 ++ H1 ++ x4 ++ x5) x6 r6); [|now rewrite <- !app_assoc|rewrite !blen_app; change (blen [130; vt]) with 2; lia|lia].
  rewrite (wr_is _ ([130; vt] ++ x2 ++ H1 ++ x4) x5 (body ++ r6)); [|now rewrite <- !app_assoc|rewrite !blen_app; change (blen [130; vt]) with 2; lia|rewrite blen_net16; lia].
  rewrite (wr_is _ ([130; vt] ++ x2 ++ H1) x4 (net16 (Z.of_nat (length es)) ++ body ++ r6)); [|now rewrite <- !app_assoc|rewrite !blen_app; change (blen [130; vt]) with 2; lia|rewrite blen_net16; lia].
  replace (8 + ipsize c + (4 + blen body)) with (12 + ipsize c + blen body) by lia.
  rewrite (wr_is _ [130; vt] x2 (H1 ++ net16 1 ++ net16 (Z.of_nat (length es)) ++ body ++ r6)); [|now rewrite <- !app_assoc|reflexivity|rewrite blen_net16; lia].
  rewrite (rdn_is _ [] ([130; vt] ++ net16 (12 + ipsize c + blen body) ++ H1 ++ net16 1 ++ net16 (Z.of_nat (length es)) ++ body) r6).
  - unfold H1. rewrite <- !app_assoc. reflexivity.
  - cbn [app]. rewrite <- !app_assoc. reflexivity.
  - reflexivity.
  - rewrite !blen_app, !blen_net16. change (blen [130; vt]) with 2. lia.
Qed.
Lemma wr_len b i d b' : wr b i d = Some b' -> blen b' = blen b.
Proof.
  unfold wr. destruct ((0 <=? i) && (i + blen d <=? blen b)) eqn:E; [|discriminate]. intros W. apply Some_inj in W. subst b'. unfold blen in *. rewrite !app_length, firstn_length, skipn_length. lia.
Qed.
Lemma gen_overflow c vt seqno buf es : blen buf = 10240 -> 12 + ipsize c + blen (flat_map create es) > 10240 -> ns_gen c vt seqno buf es = None.
Proof.
  intros Lb T. unfold ns_gen. destruct (wr buf 0 [130; vt]) as [b1|] eqn:W1; [|reflexivity]. destruct (wr b1 4 _) as [b2|] eqn:W2; [|reflexivity].
  apply wr_len in W1, W2. unfold encap. rewrite wr_none; [reflexivity|]. lia.
Qed.
Lemma listed_create c es : Forall (acceptable c) es -> (forall es' e, es = es' ++ [e] -> n_len e mod 4 <> 0) -> listed (flat_map create es) es.
Proof.
  induction 1 as [|e es A F IH]; intros Hl; [constructor|]. destruct A as (Ai & Al & A127 & A0 & _ & At & _). destruct e as [ip typ len name]. cbn [n_ip n_type n_len n_name] in *. subst len.
  cbn [flat_map]. unfold create at 1. cbn [n_ip n_type n_len n_name]. replace (firstn (Z.to_nat (blen name)) name) with name by (unfold blen; now rewrite Nat2Z.id, firstn_all). pose proof (blen_nonneg name). rewrite <- !app_assoc.
  apply listed_entry; try lia; try assumption.
  - unfold blen at 1. rewrite repeat_length. lia.
  - destruct (Z.to_nat (- blen name mod 4)) as [|k] eqn:K; [|cbn [repeat app]; eauto]. destruct es as [|e2 es2]. { exfalso. apply (Hl [] _ eq_refl). cbn [n_len]. lia. }
    cbn [repeat app flat_map]. unfold create at 1. inversion F as [|? ? A2 _]; subst. destruct A2 as (_ & _ & _ & _ & _ & T2 & _).
    unfold net16 at 1. replace (u16 (n_type e2) / 256) with 0 by (unfold u16; lia). cbn [app]. eauto.
  - apply IH. intros es' e0 E. apply (Hl (mkN ip typ (blen name) name :: es') e0). now rewrite E.
Qed.
Lemma gen_msg c ca vt seqno es : blen (f_main c) = ipsize c -> 12 + ipsize c + blen (flat_map create es) <= 10240 -> Z.of_nat (length es) < 65536 -> Forall (acceptable ca) es ->
  (forall es' e, es = es' ++ [e] -> n_len e mod 4 <> 0) -> forall c', f_v6 c' = f_v6 c ->
  name_msg c' (f_main c) ([130; vt] ++ net16 (12 + ipsize c + blen (flat_map create es)) ++ f_main c ++ [255; 0] ++ net16 seqno ++ net16 1 ++ net16 (Z.of_nat (length es)) ++ flat_map create es) es.
Proof.
  intros Lm T Le A Hl c' V. assert (Si : ipsize c = 4 \/ ipsize c = 16) by (unfold ipsize; destruct (f_v6 c); auto). set (body := flat_map create es) in *.
  exists 130, vt, 255, 0, (net16 seqno), body. set (T0 := 12 + ipsize c + blen body) in *.
  assert (L : blen ([130; vt] ++ net16 T0 ++ f_main c ++ [255; 0] ++ net16 seqno ++ net16 1 ++ net16 (Z.of_nat (length es)) ++ body) = T0).
  { rewrite !blen_app, !blen_net16. change (blen [130; vt]) with 2. change (blen [255; 0]) with 2. lia. }
  split; [rewrite L; reflexivity|]. split; [lia|]. split; [unfold ipsize in *; now rewrite V|]. split; [reflexivity|]. split; [exact Le|]. now apply listed_create with (c := ca).
Qed.

(** ** What a receiver stores *)
Lemma acceptable_ok c e : acceptable c e -> refused c e = false.
Proof.
  intros (_ & L & L127 & N0 & (Q1 & Q2) & T & H & S & P & M). unfold refused, malformed.
  assert (E1 : (n_type e =? HOST) && negb (matches rx_name (n_name e)) = false).
  { destruct (Z.eqb_spec (n_type e) HOST) as [E|]; [|reflexivity]. destruct (H E) as (Ne & _ & F). cbn [andb]. apply negb_false_iff. apply matches_ok, rx_name_ok. now split. }
  assert (E2 : (n_type e =? SERVICE) && negb (matches (rx_service (f_rsuffix c)) (n_name e)) = false).
  { destruct (Z.eqb_spec (n_type e) SERVICE) as [E|]; [|reflexivity]. cbn [andb]. apply negb_false_iff. apply matches_ok. now apply S. }
  assert (E3 : (n_type e =? MACADDR) && negb (mac_ok (n_name e)) = false).
  { destruct (Z.eqb_spec (n_type e) MACADDR) as [E|]; [|reflexivity]. rewrite M by exact E. reflexivity. }
  assert (E4 : (n_type e =? LATLON) && negb (f_latlon c (n_name e)) = false).
  { destruct (Z.eqb_spec (n_type e) LATLON) as [E|]; [|reflexivity]. rewrite P by exact E. reflexivity. }
  rewrite E1, E2, E3, E4. replace (n_len e >? MAXNAME) with false by (unfold MAXNAME; lia). cbn [orb].
  destruct (oneof (n_name e) 92) eqn:O1; [apply oneof_in in O1; contradiction|]. destruct (oneof (n_name e) 39) eqn:O2; [apply oneof_in in O2; contradiction|reflexivity].
Qed.
Lemma strn_prefix a b : strn_eq a b (blen b) = true -> prefix_of b a.
Proof.
  unfold strn_eq. intros E. apply bytes_eqb_spec in E. unfold blen in E. rewrite Nat2Z.id, firstn_all in E. exists (skipn (length b) a). rewrite <- E at 1. now rewrite firstn_skipn.
Qed.
Lemma known_apart c e l : acceptable c e -> Forall (fun a => apart c a e /\ n_type a = n_type e) l -> known c (n_type e) (n_len e) (n_ip e) (n_name e) l = None.
Proof.
  intros A. induction 1 as [|a l (Ap & Ta) F IH]; [reflexivity|]. cbn [known]. destruct (Ap Ta) as (A1 & A2 & A3). destruct A as (_ & L & _). rewrite Ta in *.
  destruct (((n_type e =? HOST) || (n_type e =? SERVICE)) && strn_eq (n_name a) (n_name e) (n_len e)) eqn:K.
  { exfalso. apply andb_prop in K. destruct K as [K1 K2]. apply A1; [unfold HOST, SERVICE in K1; lia|]. rewrite L in K2. now apply strn_prefix. }
  destruct ((n_type e =? FORWARDER) && ipeq c (n_ip a) (n_ip e)) eqn:K2.
  { exfalso. apply andb_prop in K2. destruct K2 as [K1 K2]. apply Z.eqb_eq in K1. apply (A2 K1). now apply bytes_eqb_spec in K2. }
  destruct (Z.eqb_spec (n_type e) LATLON) as [E|]; [contradiction|]. now rewrite IH.
Qed.
Definition of_type (t : Z) (es : list nent) : list nent := filter (fun e => n_type e =? t) es.
Definition holds (c : ncf) (orig : list Z) (vt : Z) (done : list nent) (st : nst) : Prop :=
  forall t, tab st t = match of_type t done with [] => [] | _ => [mkD orig vt (rev (of_type t done))] end.
Lemma step_holds c orig vt done e st : holds c orig vt done st -> acceptable c e -> Forall (fun a => apart c a e) done -> holds c orig vt (done ++ [e]) (step_e c orig vt e st).
Proof.
  intros H A Ap t. unfold step_e. assert (T : 0 <= n_type e <= 4) by apply A. replace ((0 <=? n_type e) && (n_type e <=? 4)) with true by lia.
  assert (E : of_type t (done ++ [e]) = of_type t done ++ (if n_type e =? t then [e] else [])) by (unfold of_type; rewrite filter_app; cbn [filter]; now destruct (n_type e =? t)).
  destruct (insert_e c e orig vt (tab st (n_type e))) as [t1 ch] eqn:I. cbn [tab]. unfold upd. rewrite E. destruct (Z.eqb_spec t (n_type e)) as [->|N].
  - rewrite Z.eqb_refl. rewrite H in I. unfold insert_e in I.
    assert (P : forall l, Forall (fun a => apart c a e /\ n_type a = n_type e) l -> put c e l = (e :: l, true)) by (intros l F; unfold put; rewrite acceptable_ok, known_apart by assumption; reflexivity).
    destruct (of_type (n_type e) done) as [|a0 l0] eqn:O.
    + cbn [into_e] in I. rewrite P in I by constructor. inversion I; subst. reflexivity.
    + cbn [into_e d_orig d_names] in I. assert (Q : ipeq c orig orig = true) by (unfold ipeq; now apply bytes_eqb_spec). rewrite Q in I. rewrite P in I.
      * inversion I; subst. cbn [app]. change (a0 :: l0 ++ [e]) with ((a0 :: l0) ++ [e]). rewrite rev_app_distr. reflexivity.
      * apply Forall_rev. rewrite <- O. apply Forall_forall. intros x Ix. apply filter_In in Ix. destruct Ix as [Ix Tx]. rewrite Forall_forall in Ap. split; [now apply Ap|lia].
  - replace (n_type e =? t) with false by lia. rewrite app_nil_r. apply H.
Qed.
Lemma steps_holds c orig vt es : forall done st, holds c orig vt done st -> Forall (acceptable c) es -> ForallOrdPairs (apart c) es -> Forall (fun e => Forall (fun a => apart c a e) done) es ->
  holds c orig vt (done ++ es) (steps c orig vt es st).
Proof.
  induction es as [|e es IH]; intros done st H A O D; [now rewrite app_nil_r|]. inversion A; subst. inversion O; subst. inversion D; subst.
  unfold steps. cbn [fold_left]. replace (done ++ e :: es) with ((done ++ [e]) ++ es) by (now rewrite <- app_assoc). apply IH; try assumption.
  - now apply step_holds.
  - rewrite Forall_forall in *. intros x Ix. apply Forall_app. split; [now auto|]. constructor; [now auto|constructor].
Qed.
Lemma holds_stored c orig vt es st t : holds c orig vt es st -> stored st t = rev (of_type t es) /\ Forall (fun d => d_orig d = orig) (tab st t).
Proof.
  intros H. unfold stored. rewrite H. destruct (of_type t es) as [|a l]; [split; [reflexivity|constructor]|]. split; [cbn [flat_map d_names]; now rewrite app_nil_r|]. repeat constructor.
Qed.
