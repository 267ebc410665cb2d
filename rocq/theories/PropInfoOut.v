(** C109 and C110: replies of the information plugins on their way to the clients *)
From Coq Require Import String.
From Verif Require Import Base Bytes Regex NameSvc NameSvcProofs JsonSpec JsonProofs InfoOut InfoOutSpec InfoOutProofs.

(** C109: for every history of connections and timer expirations, whatever the kernel
    does: nothing is read or written outside of the buffers and no assertion fails; at most
    8 replies are on their way; the timer runs exactly if there is one; and for every
    connection that is made while less than 8 others are open, the client gets a prefix of
    its reply, the connection is closed at most once, and only after the whole reply was
    taken or an error occurred.  Other connections get (at most) the short reply and are
    closed at once. *)
Theorem C109_delivered ps : NoDup (socks ps) -> Forall (fun s => 0 <= s) (socks ps) ->
  exists o t, run ps out_init = Some (o, t) /\ conns t = socks ps /\
    (length (opened t) <= 8)%nat /\ o_timers o = (if (length (opened t) =? 0)%nat then 0 else 1) /\
    forall t1 s r st t2, t = t1 ++ EConn s r st :: t2 ->
      ((length (opened t1) < 8)%nat -> prefix (bytes_to s t) r /\ (closed s t <= 1)%nat /\ (closed s t = 1%nat -> failed s t \/ bytes_to s t = r)) /\
      ((length (opened t1) >= 8)%nat -> prefix (bytes_to s t) st /\ closed s t = 1%nat).
Proof.
  intros ND P. destruct (run_inv ps out_init [] inv_init ND P) as (o & t & R & (V & EN) & C). cbn [app] in *. exists o, t. split; [exact R|]. split; [exact C|].
  destruct V as [V L TM]. pose proof (opened_count _ _ _ V) as OC.
  assert (C8 : o_count o <= 8).
  { rewrite (v_cnt _ _ _ V). assert (K : (length (used (o_slots o)) <= length (o_slots o))%nat); [|lia]. unfold used. rewrite map_length. generalize (o_slots o). induction l as [|x l IH]; [cbn; lia|]. cbn [filter]. destruct (busy x); cbn [length]; lia. }
  split; [lia|]. split.
  { rewrite TM, EN. destruct (length (opened t) =? 0)%nat eqn:E; [apply Nat.eqb_eq in E|apply Nat.eqb_neq in E]; destruct (0 <? o_count o) eqn:E2; cbn [b2z]; try reflexivity; lia. }
  intros t1 s r st t2 E. split; intros Lo.
  - destruct (closed s t) as [|n] eqn:Cl.
    + assert (I : In s (used (o_slots o))) by (apply (v_open _ _ _ V), opened_in; split; [apply conns_in; now exists t1, r, st, t2|exact Cl]).
      apply used_in in I. destruct I as (x & Ix & Sx & Px). assert (K : slotok x) by (pose proof (v_ok _ _ _ V) as F; rewrite Forall_forall in F; now apply F). destruct K as [->|(_ & b & Eb & _)]; [cbn in Sx; lia|].
      destruct (v_slot _ _ _ V x b Ix ltac:(lia) Eb) as (u1 & su & u2 & Eu & _ & By). rewrite Sx in *. pose proof (v_conns _ _ _ V) as NC. rewrite E in NC.
      destruct (conn_unique _ _ _ _ _ _ _ _ _ NC (eq_trans (eq_sym E) Eu)) as (_ & <- & _). split; [rewrite By; eexists; symmetry; apply firstn_skipn|]. split; [lia|discriminate].
    + destruct (v_done _ _ _ V t1 s r st t2 E ltac:(lia) Lo) as (D1 & D2 & D3). split; [exact D2|]. split; [lia|]. intros _. exact D3.
  - destruct (v_over _ _ _ V t1 s r st t2 E ltac:(lia)) as (D1 & D2). auto.
Qed.
Print Assumptions C109_delivered.

(** three connections: one is served at once, one in two parts, one fails *)
Definition ex_os (l : list outcome) (i : nat) : outcome := nth i l Again.
Example C109_delivered_ex :
  let ps := [Conn 5 (str "abc") [] true (ex_os [Again; Again; Again; Again; Again; Again; Again; Sent 100]);
             Conn 6 (str "defg") [] true (ex_os [Again; Again; Again; Again; Again; Again; Again; Sent 3]);
             Conn 7 (str "hij") [] true (ex_os [Again; Again; Again; Again; Again; Again; Sent 2]);
             Tick true (ex_os [Again; Again; Again; Again; Again; Again; Fail; Again]); Tick true (ex_os [Again; Again; Again; Again; Again; Again; Fail; Sent 1])] in
  NoDup (socks ps) /\ exists o t, run ps out_init = Some (o, t) /\ bytes_to 5 t = str "abc" /\ bytes_to 6 t = str "defg" /\ closed 6 t = 1%nat /\ bytes_to 7 t = str "hi" /\ failed 7 t /\ opened t = [] /\ o_timers o = 0.
Proof.
  intros ps. split; [repeat constructor; cbn; intuition discriminate|]. destruct (run ps out_init) as [(o & t)|] eqn:E; [|vm_compute in E; discriminate].
  exists o, t. vm_compute in E. apply Some_inj in E. inversion E. subst. repeat split; try (vm_compute; reflexivity). vm_compute. tauto.
Qed.

(** After every history, once the kernel takes at least a byte of every reply at each
    expiration of the timer, all replies are delivered and all connections closed. *)
Theorem C109_progress ps o t : NoDup (socks ps) -> Forall (fun s => 0 <= s) (socks ps) -> run ps out_init = Some (o, t) ->
  exists n, forall qs, (n <= length qs)%nat ->
    Forall (fun q => exists os, q = Tick true os /\ forall i, exists k, os i = Sent k /\ 1 <= k) qs ->
    exists o' t', run qs o = Some (o', t') /\ opened (t ++ t') = [] /\ o_timers o' = 0.
Proof.
  intros ND P R. destruct (run_inv ps out_init [] inv_init ND P) as (o1 & t1 & R1 & V & C). cbn [app] in *. rewrite R in R1. apply Some_inj in R1. inversion R1. subst o1 t1. clear R1.
  exists (Z.to_nat (total (o_slots o))). intros qs Lq G. assert (V0 := V). destruct V0 as ([V0 _ _] & _). pose proof (total_nonneg _ (v_ok _ _ _ V0)) as T0.
  assert (Gt : Forall good_tick qs) by (eapply Forall_impl; [|exact G]; intros q (os & -> & T); exact T).
  assert (Sq : socks qs = []) by (clear - Gt; induction Gt as [|q qs Hq _ IH]; [reflexivity|]; destruct q; [contradiction|exact IH]).
  destruct (run_inv qs o t V ltac:(rewrite Sq, app_nil_r; exact (v_conns _ _ _ V0)) ltac:(rewrite Sq; constructor)) as (o' & t' & R' & V' & _).
  exists o', t'. split; [exact R'|]. pose proof (run_progress qs o t o' t' V Gt ltac:(lia) R') as C0. destruct V' as ([V' _ TM] & EN). pose proof (opened_count _ _ _ V') as OC. split; [apply length_zero_iff_nil; lia|].
  rewrite TM, EN, C0. reflexivity.
Qed.
Print Assumptions C109_progress.
Example C109_progress_ex :
  let ps := [Conn 5 (str "abc") [] true (fun _ => Again)] in
  exists o t, run ps out_init = Some (o, t) /\ opened t = [5] /\ o_timers o = 1 /\
    exists o' t', run (repeat (Tick true (fun _ => Sent 1)) 3) o = Some (o', t') /\ opened (t ++ t') = [] /\ bytes_to 5 (t ++ t') = str "abc".
Proof. intros ps. eexists _, _. split; [vm_compute; reflexivity|]. split; [reflexivity|]. split; [reflexivity|]. eexists _, _. split; [vm_compute; reflexivity|]. split; vm_compute; reflexivity. Qed.

(** ** C110 *)
Lemma strip_none s : hd 0 s <> 32 -> strip s = s.
Proof. intros H. destruct s as [|c s]; [reflexivity|]. cbn [hd] in H. unfold strip. destruct c; try reflexivity. destruct p; try reflexivity. destruct p; try reflexivity. destruct p; try reflexivity. destruct p; try reflexivity. destruct p; try reflexivity. destruct p; try reflexivity. congruence. Qed.
Lemma strip_spaces n s : hd 0 s <> 32 -> strip (repeat 32 n ++ s) = s.
Proof. intros H. induction n as [|n IH]; [now apply strip_none|exact IH]. Qed.
Lemma rev_repeat n : rev (repeat 32 n) = repeat 32 n.
Proof. induction n as [|n IH]; [reflexivity|]. cbn [repeat rev]. rewrite IH. symmetry. apply repeat_cons. Qed.
Lemma trim_ok s n : Forall (fun c => 48 <= c <= 57) s -> s <> [] -> trim (32 :: s ++ repeat 32 n) = s.
Proof.
  intros F N. unfold trim. assert (H1 : strip (32 :: s ++ repeat 32 n) = s ++ repeat 32 n).
  { change (strip (32 :: s ++ repeat 32 n)) with (strip (s ++ repeat 32 n)). apply strip_none. destruct s as [|c s]; [congruence|]. inversion F. cbn [app hd]. lia. }
  rewrite H1, rev_app_distr, rev_repeat, strip_spaces; [apply rev_involutive|]. destruct (exists_last N) as (x & c & ->). rewrite rev_app_distr. cbn [rev app hd]. apply Forall_app in F. destruct F as (_ & F). inversion F. lia.
Qed.
Lemma value_of_fold : forall s a, fold_left (fun a c => 10 * a + (c - 48)) s a = a * 10 ^ Z.of_nat (length s) + value_of s.
Proof.
  induction s as [|c s IH] using rev_ind; intros a. { cbn. change (value_of []) with 0. lia. }
  rewrite fold_left_app, IH, value_of_app, app_length. cbn [fold_left length]. replace (Z.of_nat (length s + 1)) with (Z.of_nat (length s) + 1) by lia. rewrite Z.pow_add_r by lia. change (10 ^ 1) with 10. change (10 ^ Z.of_nat 1) with 10.
  assert (V : value_of [c] = c - 48) by (cbn; lia). rewrite V. lia.
Qed.

(** C110: a reply with headers is an HTTP response: lines up to an empty one and then
    exactly the body, with exactly one Content-Length field whose value is the length of
    the body (below 2 GiB), and the phrase of the status in the first line, whatever the plugin, status, type, date and body are. *)
Theorem C110_content_length plugin status mime date body : inline plugin -> match mime with Some m => inline m | None => True end -> match date with Some d => inline d | None => True end -> blen body < 2 ^ 31 ->
  exists t ls v, reply_text true plugin status mime date body = Some t /\ response t ls body /\ (forall ls' b', response t ls' b' -> ls' = ls /\ b' = body) /\
    fields (str "Content-Length:") ls = [v] /\ number v (blen body) /\
    forall text, In (status, text) phrases -> hd [] ls = str "HTTP/1.1 " ++ text.
Proof.
  intros Ip Im Id L. pose proof (blen_nonneg body) as B0. destruct (header_text plugin status mime date) as (before & HB & HT).
  unfold reply_text. rewrite HB. set (len := blen ((before ++ repeat 32 12 ++ crlf ++ str "Cache-Control: no-cache" ++ crlf ++ crlf) ++ body) - blen (before ++ repeat 32 12 ++ crlf ++ str "Cache-Control: no-cache" ++ crlf ++ crlf)).
  assert (EL : len = blen body) by (unfold len; rewrite (blen_app _ body); lia). clearbody len. subst len.
  assert (TI : to_int (blen body) = blen body) by (unfold to_int; rewrite Z.mod_small by lia; destruct (blen body <? 2 ^ 31) eqn:E; lia).
  assert (FI : fmt_int (to_int (blen body)) = dec 10 (blen body) []) by (rewrite TI; unfold fmt_int; destruct (blen body <? 0) eqn:E; [lia|reflexivity]).
  destruct (dec_spec 10 (blen body) [] ltac:(change (10 ^ Z.of_nat 10) with 10000000000; lia) ltac:(lia)) as (ds & Ed & Fd & Vd & Nd & _). rewrite app_nil_r in Ed.
  destruct (dec_ok 10 (blen body) [] B0) as (ds' & Ed' & _ & L10 & _). rewrite app_nil_r in Ed'. rewrite Ed in Ed'. subst ds'.
  assert (F12 : firstn 12 (fmt_int (to_int (blen body))) = ds) by (rewrite FI, Ed; apply firstn_all2; lia).
  rewrite <- !app_assoc. pose proof (adjust_ok before (crlf ++ str "Cache-Control: no-cache" ++ crlf ++ crlf ++ body) (blen body)) as A. rewrite F12 in A. specialize (A ltac:(lia)). cbv zeta in A. rewrite A. clear A.
  set (v := ds ++ repeat 32 (12 - length ds)).
  assert (Iv : inline v).
  { apply inline_app; apply Forall_forall; intros c I; [rewrite Forall_forall in Fd; specialize (Fd c I); unfold digit in Fd; lia|apply repeat_spec in I; lia]. }
  rewrite HT. pose proof (response_text _ body (head_lines_ok plugin status mime date v Ip Im Id Iv)) as R.
  eexists _, _, ds. split; [reflexivity|]. split; [exact R|]. split; [intros ls' b' R'; destruct (response_unique _ _ _ R _ _ R') as (-> & ->); auto|].
  split.
  - assert (T : trim (32 :: v) = ds) by (apply trim_ok; assumption). unfold head_lines, fields. rewrite !flat_map_app. rewrite <- T.
    destruct date as [d|], mime as [m|]; reflexivity.
  - split; [split; [exact Nd|]; split; [exact Fd|]; rewrite value_of_fold, Vd; lia|].
    intros text I. cbn in I. repeat (destruct I as [I|I]; [injection I as <- <-; reflexivity|]). destruct I.
Qed.
Print Assumptions C110_content_length.
Example C110_content_length_ex :
  exists t ls, reply_text true (str "jsoninfo") 200 (Some (str "application/json")) (Some (str "Tue, 17 Nov 2026 10:00:00")) (str "{}" ++ [10]) = Some t /\ response t ls (str "{}" ++ [10]) /\
    fields (str "Content-Length:") ls = [str "3"] /\ length ls = 11%nat.
Proof.
  assert (I1 : inline (str "jsoninfo")) by (apply inline_check; reflexivity). assert (I2 : inline (str "application/json")) by (apply inline_check; reflexivity). assert (I3 : inline (str "Tue, 17 Nov 2026 10:00:00")) by (apply inline_check; reflexivity).
  eexists _, (head_lines (str "jsoninfo") 200 (Some (str "application/json")) (Some (str "Tue, 17 Nov 2026 10:00:00")) (str "3           ")). split; [vm_compute; reflexivity|].
  split; [exact (response_text _ _ (head_lines_ok (str "jsoninfo") 200 (Some (str "application/json")) (Some (str "Tue, 17 Nov 2026 10:00:00")) (str "3           ") I1 I2 I3 ltac:(apply inline_check; reflexivity)))|].
  split; vm_compute; reflexivity.
Qed.
