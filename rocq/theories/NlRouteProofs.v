(** Requests to the kernel: what they say. *)
From Verif Require Import Base Bytes NetBuf NetBufProofs Parser ParserProofs IpCalc NlRoute NlRouteSpec SecureProofs.

Lemma blen_h16 le n : blen (h16 le n) = 2. Proof. destruct le; reflexivity. Qed.
Lemma blen_h32 le n : blen (h32 le n) = 4. Proof. destruct le; reflexivity. Qed.
Lemma hval_h16 le n : 0 <= n < 65536 -> hval le (h16 le n) = n.
Proof. intros H. unfold hval, h16. destruct le; rewrite ?rev_involutive; unfold net16, be, u16; cbn [fold_left]; lia. Qed.
Lemma hval_h32 le n : hval le (h32 le n) = u32 n.
Proof.
  unfold hval, h32. destruct le; rewrite ?rev_involutive; unfold be, u32; cbn [fold_left]; set (m := n mod 4294967296); assert (0 <= m < 4294967296) by (apply Z.mod_pos_bound; lia); clearbody m; lia.
Qed.
Lemma al4_id n : n mod 4 = 0 -> al4 n = n.
Proof. unfold al4. intros H. lia. Qed.

(** an attribute *)
Definition one (le : bool) (a : Z * list Z) : list Z := h16 le (4 + blen (snd a)) ++ h16 le (fst a) ++ snd a.
Lemma blen_one le a : blen (one le a) = 4 + blen (snd a).
Proof. unfold one. rewrite !blen_app, !blen_h16. lia. Qed.
Lemma addreq_ok le hd A x Zs t d : blen hd = 24 -> blen A mod 4 = 0 -> blen x = 4 + blen d -> 28 + blen A + 4 + blen d < 2 ^ 32 ->
  addreq le (h32 le (28 + blen A) ++ hd ++ A ++ x ++ Zs) t d =
  Some (h32 le (28 + blen (A ++ one le (t, d))) ++ hd ++ (A ++ one le (t, d)) ++ Zs).
Proof.
  intros Lh La Lx Hb. pose proof (blen_nonneg A). pose proof (blen_nonneg d). unfold addreq.
  rewrite (rdn_is _ [] (h32 le (28 + blen A)) (hd ++ A ++ x ++ Zs)); [|reflexivity|reflexivity|now rewrite blen_h32]. cbn [bind].
  rewrite hval_h32. unfold u32. rewrite Z.mod_small by lia. rewrite al4_id by lia.
  rewrite (wr_is _ [] (h32 le (28 + blen A)) (hd ++ A ++ x ++ Zs)); [|reflexivity|reflexivity|now rewrite !blen_h32]. cbn [bind].
  destruct (split_exact x 2) as (x1 & x2 & -> & L1 & L2); [lia|]. destruct (split_exact x2 2) as (x2' & x3 & -> & L3 & L4); [lia|]. rewrite !blen_app in *.
  set (HH := h32 le (28 + blen A + 4 + blen d)). cbn [app].
  rewrite (wr_is _ (HH ++ hd ++ A ++ x1) x2' (x3 ++ Zs)); [|rewrite <- !app_assoc; reflexivity|unfold HH; rewrite !blen_app, blen_h32; lia|rewrite blen_h16; lia]. cbn [bind].
  rewrite (wr_is _ (HH ++ hd ++ A) x1 (h16 le t ++ x3 ++ Zs)); [|rewrite <- !app_assoc; reflexivity|unfold HH; rewrite !blen_app, blen_h32; lia|rewrite blen_h16; lia]. cbn [bind].
  rewrite (wr_is _ (HH ++ hd ++ A ++ h16 le (4 + blen d) ++ h16 le t) x3 Zs); [|rewrite <- !app_assoc; reflexivity|unfold HH; rewrite !blen_app, blen_h32, !blen_h16; lia|lia].
  f_equal. unfold one, HH. cbn [fst snd]. rewrite !blen_app, !blen_h16. rewrite <- !app_assoc.
  replace (28 + (blen A + (2 + (2 + blen d)))) with (28 + blen A + 4 + blen d) by lia. reflexivity.
Qed.

Lemma attrs_enc le l : Forall (fun a => blen (snd a) mod 4 = 0 /\ blen (snd a) < 65000 /\ 0 <= fst a < 65536) l -> attrs le (flat_map (one le) l) l.
Proof.
  induction 1 as [|[t d] l (H1 & H2 & H3) _ IH]; cbn [flat_map fst snd] in *; [constructor|].
  pose proof (blen_nonneg d). unfold one at 1. cbn [fst snd]. rewrite <- !app_assoc.
  rewrite <- (hval_h16 le t) at 2 by exact H3. apply (attrs_cons le (h16 le (4 + blen d)) (h16 le t) d [] (flat_map (one le) l) l);
    try apply blen_h16; [apply hval_h16; lia| | |exact IH]; change (blen []) with 0; lia.
Qed.
Lemma attrs_enc_last le l t d : Forall (fun a => blen (snd a) mod 4 = 0 /\ blen (snd a) < 65000 /\ 0 <= fst a < 65536) l -> blen d < 65000 -> 0 <= t < 65536 ->
  attrs le (flat_map (one le) (l ++ [(t, d)])) (l ++ [(t, d)]).
Proof.
  intros F L T. induction F as [|[t0 d0] l (H1 & H2 & H3) _ IH]; cbn [flat_map fst snd app] in *.
  { rewrite app_nil_r. unfold one. cbn [fst snd]. pose proof (blen_nonneg d). rewrite <- (hval_h16 le t) at 2 by exact T. apply attrs_last; try apply blen_h16. apply hval_h16. lia. }
  pose proof (blen_nonneg d0). unfold one at 1. cbn [fst snd]. rewrite <- !app_assoc.
  rewrite <- (hval_h16 le t0) at 2 by exact H3. apply (attrs_cons le (h16 le (4 + blen d0)) (h16 le t0) d0 [] (flat_map (one le) (l ++ [(t, d)])) (l ++ [(t, d)]));
    try apply blen_h16; [apply hval_h16; lia| | |exact IH]; change (blen []) with 0; lia.
Qed.

(** two readings of the same bytes are the same *)
Lemma app_len {A} (a b c d : list A) : length a = length c -> a ++ b = c ++ d -> a = c /\ b = d.
Proof.
  revert c. induction a as [|x a IH]; intros [|y c] L E; cbn in *; try discriminate; [auto|]. inversion E; subst. destruct (IH c) as (-> & ->); auto.
Qed.
Lemma blen_eq (a b : list Z) : blen a = blen b <-> length a = length b.
Proof. unfold blen. lia. Qed.
Lemma attrs_unique le m l : attrs le m l -> forall l', attrs le m l' -> l = l'.
Proof.
  assert (P2 : forall x : list Z, blen x = 2 -> exists a b, x = [a; b]).
  { intros x H. destruct x as [|a [|b [|c x]]]; unfold blen in H; cbn in H; try lia. eauto. }
  induction 1 as [|n t d Ln Lt Hn|n t d pad rest l Ln Lt Hn Hq Hp _ IH]; intros l' H'.
  - inversion H' as [|n' t' d' Ln' Lt' Hn' E|n' t' d' pad' rest' l0 Ln' Lt' Hn' Hq' Hp' Hr' E]; [reflexivity| |];
      destruct (P2 _ Ln') as (a & b & ->); discriminate.
  - inversion H' as [E|n' t' d' Ln' Lt' Hn' E|n' t' d' pad' rest' l0 Ln' Lt' Hn' Hq' Hp' Hr' E].
    + destruct (P2 _ Ln) as (a & b & ->). discriminate.
    + apply app_len in E; [|apply blen_eq; lia]. destruct E as (-> & E). apply app_len in E; [|apply blen_eq; lia]. destruct E as (-> & ->). reflexivity.
    + apply app_len in E; [|apply blen_eq; lia]. destruct E as (-> & E). apply app_len in E; [|apply blen_eq; lia]. destruct E as (-> & E).
      assert (Ed : d' ++ pad' ++ rest' = d ++ []) by (now rewrite app_nil_r). apply app_len in Ed; [|apply blen_eq; lia]. destruct Ed as (-> & E2).
      apply app_eq_nil in E2. destruct E2 as (-> & ->). inversion Hr'; [reflexivity| |];
      match goal with L : blen ?x = 2, Q : ?x ++ _ = [] |- _ => destruct (P2 _ L) as (? & ? & ->); discriminate end.
  - inversion H' as [E|n' t' d' Ln' Lt' Hn' E|n' t' d' pad' rest' l0 Ln' Lt' Hn' Hq' Hp' Hr' E].
    + destruct (P2 _ Ln) as (a & b & ->). discriminate.
    + apply app_len in E; [|apply blen_eq; lia]. destruct E as (-> & E). apply app_len in E; [|apply blen_eq; lia]. destruct E as (-> & E).
      assert (Ed : d' ++ [] = d ++ pad ++ rest) by (now rewrite app_nil_r). apply app_len in Ed; [|apply blen_eq; lia]. destruct Ed as (-> & E2).
      symmetry in E2. apply app_eq_nil in E2. destruct E2 as (-> & ->). f_equal. apply IH. constructor.
    + apply app_len in E; [|apply blen_eq; lia]. destruct E as (-> & E). apply app_len in E; [|apply blen_eq; lia]. destruct E as (-> & E).
      apply app_len in E; [|apply blen_eq; lia]. destruct E as (-> & E). apply app_len in E; [|apply blen_eq; pose proof (blen_nonneg pad); pose proof (blen_nonneg pad'); lia]. destruct E as (-> & ->).
      f_equal. now apply IH.
Qed.
Lemma reads_unique le m q q' : reads le m q -> reads le m q' -> q = q'.
Proof.
  intros (_ & _ & A & B & _ & C & D & E) (_ & _ & A' & B' & _ & C' & D' & E'). pose proof (attrs_unique _ _ _ E _ E') as U.
  destruct q, q'. cbn in *. rewrite C in C'. inversion C'. congruence.
Qed.

(** the header *)
Definition hdr (le : bool) (typ fl fam dl tb pr sc ty rf : Z) : list Z :=
  h16 le typ ++ h16 le fl ++ repeat 0 8 ++ [fam; dl; 0; 0; tb; pr; sc; ty] ++ h32 le rf.
Lemma blen_hdr le typ fl fam dl tb pr sc ty rf : blen (hdr le typ fl fam dl tb pr sc ty rf) = 24.
Proof. unfold hdr. rewrite !blen_app, !blen_h16, blen_h32. reflexivity. Qed.
Lemma reads_ok le typ fl fam dl tb pr sc ty rf A l : 0 <= typ < 65536 -> 0 <= fl < 65536 -> 28 + blen A < 2 ^ 32 -> attrs le A l ->
  reads le (h32 le (28 + blen A) ++ hdr le typ fl fam dl tb pr sc ty rf ++ A) (mkQ typ fl fam dl 0 0 tb pr sc ty (u32 rf) l).
Proof.
  intros Ht Hf Hb Ha. pose proof (blen_nonneg A). assert (L : blen (h32 le (28 + blen A) ++ hdr le typ fl fam dl tb pr sc ty rf ++ A) = 28 + blen A) by (rewrite !blen_app, blen_h32, blen_hdr; lia).
  unfold reads. cbn [q_type q_nlflags q_family q_dstlen q_srclen q_tos q_table q_proto q_scope q_rtype q_flags q_attrs]. rewrite L.
  split; [lia|]. set (HH := h32 le (28 + blen A)).
  split. { rewrite (slice_is _ [] HH (hdr le typ fl fam dl tb pr sc ty rf ++ A)); [|reflexivity|reflexivity|unfold HH; now rewrite blen_h32]. unfold HH. rewrite hval_h32. unfold u32. rewrite Z.mod_small; lia. }
  assert (LH : blen HH = 4) by apply blen_h32. unfold hdr.
  split. { rewrite (slice_is _ HH (h16 le typ) (h16 le fl ++ repeat 0 8 ++ [fam; dl; 0; 0; tb; pr; sc; ty] ++ h32 le rf ++ A)); [now apply hval_h16|now rewrite <- !app_assoc|lia|now rewrite blen_h16]. }
  split. { rewrite (slice_is _ (HH ++ h16 le typ) (h16 le fl) (repeat 0 8 ++ [fam; dl; 0; 0; tb; pr; sc; ty] ++ h32 le rf ++ A)); [now apply hval_h16|now rewrite <- !app_assoc|rewrite blen_app, blen_h16; lia|now rewrite blen_h16]. }
  split. { apply slice_is with (pre := HH ++ h16 le typ ++ h16 le fl) (post := [fam; dl; 0; 0; tb; pr; sc; ty] ++ h32 le rf ++ A); [now rewrite <- !app_assoc|rewrite !blen_app, !blen_h16; lia|reflexivity]. }
  split. { apply slice_is with (pre := HH ++ h16 le typ ++ h16 le fl ++ repeat 0 8) (post := h32 le rf ++ A); [now rewrite <- !app_assoc|rewrite !blen_app, !blen_h16; change (blen (repeat 0 8)) with 8; lia|reflexivity]. }
  split. { rewrite (slice_is _ (HH ++ h16 le typ ++ h16 le fl ++ repeat 0 8 ++ [fam; dl; 0; 0; tb; pr; sc; ty]) (h32 le rf) A); [apply hval_h32|now rewrite <- !app_assoc|rewrite !blen_app, !blen_h16; change (blen (repeat 0 8)) with 8; change (blen [fam; dl; 0; 0; tb; pr; sc; ty]) with 8; lia|now rewrite blen_h32]. }
  rewrite (slice_is _ (HH ++ h16 le typ ++ h16 le fl ++ repeat 0 8 ++ [fam; dl; 0; 0; tb; pr; sc; ty] ++ h32 le rf) A []); [exact Ha|now rewrite <- !app_assoc, app_nil_r|rewrite !blen_app, !blen_h16, blen_h32; change (blen (repeat 0 8)) with 8; change (blen [fam; dl; 0; 0; tb; pr; sc; ty]) with 8; lia|lia].
Qed.

(** the expected fields and attributes *)
Definition no_onlink (x : rtargs) : bool := match a_gw x with Some _ => false | None => negb (a_plen x =? 32) end.
Definition xhdr (le : bool) (x : rtargs) (rf : Z) : list Z :=
  hdr le (if a_set x then 24 else 25) (if a_set x then 1285 else 5) (u8 (a_fam x)) (u8 (a_plen x)) (if a_table x <? 256 then a_table x else 0)
      (if a_set x then u8 (a_proto x) else 0) (if negb (a_set x) && a_similar x then 255 else u8 (a_scope x)) (if a_black x then 6 else 1) rf.
Definition opt (c : bool) (t : Z) (d : list Z) : list (Z * list Z) := if c then [(t, d)] else [].
Definition xattrs (le : bool) (x : rtargs) : list (Z * list Z) :=
  opt ((a_set x || negb (a_similar x)) && negb (a_black x)) 4 (h32 le (a_if x)) ++
  (match a_src x with Some s => opt (a_set x) 7 s | None => [] end) ++
  opt (a_metric x >=? 0) 6 (h32 le (a_metric x)) ++
  (match a_gw x with Some g => [(5, g)] | None => opt (a_plen x =? 32) 5 (a_dst x) end) ++ [(1, a_dst x)].

Definition hbind {B} (le : bool) (x : rtargs) (k : list Z -> option B) : option B :=
  bind (wr rtreq0 24 (h32 le (a_flags x))) (fun b =>
  bind (wr b 16 [u8 (a_fam x)]) (fun b =>
  bind (if a_table x <? 256 then wr b 20 [a_table x]
        else bind (wr b 20 [0]) (fun b => addreq le b 15 (h32 le (a_table x)))) (fun b =>
  bind (wr b 0 (h32 le 28)) (fun b =>
  bind (wr b 6 (h16 le (if a_set x then 1 + 4 + 1024 + 256 else 1 + 4))) (fun b =>
  bind (wr b 4 (h16 le (if a_set x then 24 else 25))) (fun b =>
  bind (wr b 23 [if a_black x then 6 else 1]) (fun b =>
  bind (wr b 17 [u8 (a_plen x)]) (fun b =>
  bind (if a_set x then wr b 21 [u8 (a_proto x)] else Some b) (fun b =>
  bind (wr b 22 [if negb (a_set x) && a_similar x then 255 else u8 (a_scope x)]) k))))))))).

Lemma header_ok {B} le x (k : list Z -> option B) : hbind le x k = k (h32 le (28 + blen []) ++ xhdr le x (a_flags x) ++ [] ++ repeat 0 1024).
Proof.
  unfold hbind, rtreq0. set (R := repeat 0 1024). assert (ER : repeat 0 28 = repeat 0 24 ++ repeat 0 4) by reflexivity. rewrite ER, <- app_assoc.
  set (F := h32 le (a_flags x)). assert (LF : blen F = 4) by apply blen_h32.
  rewrite (wr_is _ (repeat 0 24) (repeat 0 4) R); [|reflexivity|reflexivity|now rewrite LF]. cbn [bind].
  rewrite (wr_is _ (repeat 0 16) [0] (repeat 0 7 ++ F ++ R)); [|reflexivity|reflexivity|reflexivity]. cbn [bind].
  set (fam := u8 (a_fam x)). set (tb := if a_table x <? 256 then a_table x else 0).
  assert (T : exists z8, blen z8 = 8 /\ (if a_table x <? 256 then wr (repeat 0 16 ++ [fam] ++ repeat 0 7 ++ F ++ R) 20 [a_table x]
        else bind (wr (repeat 0 16 ++ [fam] ++ repeat 0 7 ++ F ++ R) 20 [0]) (fun b => addreq le b 15 (h32 le (a_table x)))) =
        Some (z8 ++ repeat 0 8 ++ [fam; 0; 0; 0; tb; 0; 0; 0] ++ F ++ R)).
  { unfold tb. destruct (a_table x <? 256) eqn:E.
    - exists (repeat 0 8). split; [reflexivity|]. rewrite (wr_is _ (repeat 0 16 ++ [fam; 0; 0; 0]) [0] (repeat 0 3 ++ F ++ R)); reflexivity.
    - rewrite (wr_is _ (repeat 0 16 ++ [fam; 0; 0; 0]) [0] (repeat 0 3 ++ F ++ R)); [|reflexivity..]. cbn [bind]. unfold addreq.
      rewrite (rdn_is _ [] (repeat 0 4) (repeat 0 12 ++ [fam; 0; 0; 0; 0; 0; 0; 0] ++ F ++ R)); [|reflexivity..]. cbn [bind].
      replace (al4 (hval le (repeat 0 4))) with 0 by (destruct le; reflexivity). rewrite blen_h32.
      set (H8 := h32 le (0 + 4 + 4)). set (T4 := h32 le (a_table x)). assert (L8 : blen H8 = 4) by apply blen_h32. assert (L4 : blen T4 = 4) by apply blen_h32.
      rewrite (wr_is _ [] (repeat 0 4) (repeat 0 12 ++ [fam; 0; 0; 0; 0; 0; 0; 0] ++ F ++ R)); [|reflexivity|reflexivity|now rewrite L8]. cbn [bind].
      destruct (split_exact H8 2) as (h1 & h2 & -> & L1 & L2); [lia|]. rewrite blen_app in L8.
      rewrite (wr_is _ h1 h2 (repeat 0 12 ++ [fam; 0; 0; 0; 0; 0; 0; 0] ++ F ++ R)); [|now rewrite <- !app_assoc|lia|rewrite blen_h16; lia]. cbn [bind].
      rewrite (wr_is _ [] h1 (h16 le 15 ++ repeat 0 12 ++ [fam; 0; 0; 0; 0; 0; 0; 0] ++ F ++ R)); [|reflexivity|reflexivity|rewrite blen_h16; lia]. cbn [bind].
      rewrite (wr_is _ (h16 le (4 + 4) ++ h16 le 15) (repeat 0 4) (repeat 0 8 ++ [fam; 0; 0; 0; 0; 0; 0; 0] ++ F ++ R)); [|now rewrite <- !app_assoc|rewrite blen_app, !blen_h16; reflexivity|now rewrite L4].
      exists ((h16 le (4 + 4) ++ h16 le 15) ++ T4). split; [rewrite !blen_app, !blen_h16; lia|]. f_equal. rewrite <- !app_assoc. reflexivity. }
  destruct T as (z8 & L8 & ->). cbn [bind].
  destruct (split_exact z8 4) as (z4 & y4 & -> & L1 & L2); [lia|]. destruct (split_exact y4 2) as (y1 & y2 & -> & L3 & L4); [lia|]. rewrite !blen_app in *.
  set (H28 := h32 le 28). assert (L28 : blen H28 = 4) by apply blen_h32.
  rewrite (wr_is _ [] z4 ((y1 ++ y2) ++ repeat 0 8 ++ [fam; 0; 0; 0; tb; 0; 0; 0] ++ F ++ R)); [|now rewrite <- !app_assoc|reflexivity|lia]. cbn [bind].
  rewrite (wr_is _ (H28 ++ y1) y2 (repeat 0 8 ++ [fam; 0; 0; 0; tb; 0; 0; 0] ++ F ++ R)); [|now rewrite <- !app_assoc|rewrite blen_app; lia|rewrite blen_h16; lia]. cbn [bind].
  set (fl := h16 le (if a_set x then 1 + 4 + 1024 + 256 else 1 + 4)). assert (Lfl : blen fl = 2) by apply blen_h16.
  rewrite (wr_is _ H28 y1 (fl ++ repeat 0 8 ++ [fam; 0; 0; 0; tb; 0; 0; 0] ++ F ++ R)); [|now rewrite <- !app_assoc|lia|rewrite blen_h16; lia]. cbn [bind].
  set (ty := h16 le (if a_set x then 24 else 25)). assert (Lty : blen ty = 2) by apply blen_h16.
  set (P := H28 ++ ty ++ fl ++ repeat 0 8). assert (LP : blen P = 16) by (unfold P; rewrite !blen_app; change (blen (repeat 0 8)) with 8; lia).
  rewrite (wr_is _ (P ++ [fam; 0; 0; 0; tb; 0; 0]) [0] (F ++ R)); [|unfold P; now rewrite <- !app_assoc|rewrite blen_app; change (blen [fam; 0; 0; 0; tb; 0; 0]) with 7; lia|reflexivity]. cbn [bind].
  set (rt := if a_black x then 6 else 1).
  rewrite (wr_is _ (P ++ [fam]) [0] ([0; 0; tb; 0; 0; rt] ++ F ++ R)); [|now rewrite <- !app_assoc|rewrite blen_app; change (blen [fam]) with 1; lia|reflexivity]. cbn [bind].
  set (pl := u8 (a_plen x)). set (pr := if a_set x then u8 (a_proto x) else 0).
  assert (EP : (if a_set x then wr ((P ++ [fam]) ++ [pl] ++ [0; 0; tb; 0; 0; rt] ++ F ++ R) 21 [u8 (a_proto x)] else Some ((P ++ [fam]) ++ [pl] ++ [0; 0; tb; 0; 0; rt] ++ F ++ R))
    = Some (P ++ [fam; pl; 0; 0; tb; pr; 0; rt] ++ F ++ R)).
  { unfold pr. destruct (a_set x).
    - rewrite (wr_is _ (P ++ [fam; pl; 0; 0; tb]) [0] ([0; rt] ++ F ++ R)); [now rewrite <- !app_assoc|now rewrite <- !app_assoc|rewrite blen_app; change (blen [fam; pl; 0; 0; tb]) with 5; lia|reflexivity].
    - f_equal. now rewrite <- !app_assoc. }
  rewrite EP. cbn [bind].
  rewrite (wr_is _ (P ++ [fam; pl; 0; 0; tb; pr]) [0] ([rt] ++ F ++ R)); [|now rewrite <- !app_assoc|rewrite blen_app; change (blen [fam; pl; 0; 0; tb; pr]) with 6; lia|reflexivity]. cbn [bind].
  f_equal. unfold xhdr, hdr. fold fam pl tb pr rt F. unfold P, H28, ty, fl. change (28 + blen []) with 28. replace (if a_set x then 1 + 4 + 1024 + 256 else 1 + 4) with (if a_set x then 1285 else 5) by (now destruct (a_set x)).
  rewrite <- !app_assoc. reflexivity.
Qed.

Definition st (le : bool) (hd : list Z) (l : list (Z * list Z)) (b : list Z) : Prop :=
  let A := flat_map (one le) l in exists Zs, b = h32 le (28 + blen A) ++ hd ++ A ++ Zs /\ blen A + blen Zs = 1024.
Definition al (l : list (Z * list Z)) : Prop := Forall (fun a => blen (snd a) mod 4 = 0 /\ blen (snd a) < 65000 /\ 0 <= fst a < 65536) l.
Lemma al_len le l : al l -> blen (flat_map (one le) l) mod 4 = 0.
Proof. induction 1 as [|[t d] l (H & _) _ IH]; [reflexivity|]. cbn [flat_map fst snd] in *. rewrite blen_app, blen_one. cbn [snd]. lia. Qed.
Lemma st_len le hd l b : st le hd l b -> blen (flat_map (one le) l) <= 1024.
Proof. intros (Zs & _ & L). pose proof (blen_nonneg Zs). lia. Qed.
Lemma st_add le hd l b t d : st le hd l b -> blen hd = 24 -> al l -> blen (flat_map (one le) l) + 4 + blen d <= 1024 ->
  exists b', addreq le b t d = Some b' /\ st le hd (l ++ [(t, d)]) b'.
Proof.
  intros (Zs & -> & L) Lh Al Hl. pose proof (blen_nonneg d). destruct (split_exact Zs (4 + blen d)) as (x & Zs' & -> & L1 & L2); [lia|]. rewrite blen_app in *.
  rewrite addreq_ok; [|exact Lh|now apply al_len|exact L1|lia]. eexists. split; [reflexivity|]. exists Zs'. rewrite flat_map_app. cbn [flat_map]. rewrite app_nil_r. split; [reflexivity|].
  rewrite blen_app, blen_one. cbn [snd]. lia.
Qed.
Lemma st_flags le a0 fl fam dl tb pr sc ty rf rf' l b : st le (hdr le a0 fl fam dl tb pr sc ty rf) l b ->
  rdn b 24 4 = Some (h32 le rf) /\ exists b', wr b 24 (h32 le rf') = Some b' /\ st le (hdr le a0 fl fam dl tb pr sc ty rf') l b'.
Proof.
  intros (Zs & -> & L). unfold hdr. set (A := flat_map (one le) l) in *.
  set (P := h32 le (28 + blen A) ++ h16 le a0 ++ h16 le fl ++ repeat 0 8 ++ [fam; dl; 0; 0; tb; pr; sc; ty]).
  assert (LP : blen P = 24) by (unfold P; rewrite !blen_app, blen_h32, !blen_h16; reflexivity).
  split. { apply rdn_is with (pre := P) (post := A ++ Zs); [unfold P; now rewrite <- !app_assoc|lia|now rewrite blen_h32]. }
  exists (P ++ h32 le rf' ++ A ++ Zs). split; [apply wr_is with (x := h32 le rf); [unfold P; now rewrite <- !app_assoc|lia|now rewrite !blen_h32]|].
  exists Zs. fold A. split; [unfold P, hdr; now rewrite <- !app_assoc|exact L].
Qed.
Lemma st_sent le hd l b : st le hd l b -> blen hd = 24 -> sent le b = Some (h32 le (28 + blen (flat_map (one le) l)) ++ hd ++ flat_map (one le) l).
Proof.
  intros (Zs & -> & L) Lh. set (A := flat_map (one le) l) in *. pose proof (blen_nonneg Zs). pose proof (blen_nonneg A). unfold sent.
  rewrite (rdn_is _ [] (h32 le (28 + blen A)) (hd ++ A ++ Zs)); [|reflexivity|reflexivity|now rewrite blen_h32]. cbn [bind].
  rewrite hval_h32. unfold u32. rewrite Z.mod_small by lia. apply rdn_is with (pre := []) (post := Zs); [cbn [app]; now rewrite <- !app_assoc|reflexivity|rewrite !blen_app, blen_h32; lia].
Qed.
Lemma rdn_all a n : blen a = n -> rdn a 0 n = Some a.
Proof. intros <-. apply rdn_is with (pre := []) (post := []); [now rewrite app_nil_r|reflexivity|reflexivity]. Qed.
Lemma fsize_le fam : 4 <= fsize fam <= 16 /\ fsize fam mod 4 = 0.
Proof. unfold fsize. destruct (fam =? 2); lia. Qed.
Lemma al_app l1 l2 : al l1 -> al l2 -> al (l1 ++ l2). Proof. intros H1 H2. apply Forall_app. split; assumption. Qed.
Lemma al_one t d : blen d mod 4 = 0 -> blen d <= 16 -> 0 <= t < 65536 -> al [(t, d)].
Proof. intros. repeat constructor; cbn [fst snd]; lia. Qed.
Lemma flat_len le l l2 : blen (flat_map (one le) (l ++ l2)) = blen (flat_map (one le) l) + blen (flat_map (one le) l2).
Proof. now rewrite flat_map_app, blen_app. Qed.
Lemma one_len le t d : blen (flat_map (one le) [(t, d)]) = 4 + blen d.
Proof. cbn [flat_map]. rewrite app_nil_r, blen_one. reflexivity. Qed.

(** at most one more attribute, of at most 16 bytes *)
Definition small (n : Z) (le : bool) (l : list (Z * list Z)) : Prop := al l /\ blen (flat_map (one le) l) <= n.
Lemma small_add le n hd l b t d : st le hd l b -> blen hd = 24 -> small n le l -> n <= 1000 -> blen d mod 4 = 0 -> blen d <= 16 -> 0 <= t < 65536 ->
  exists b', addreq le b t d = Some b' /\ st le hd (l ++ [(t, d)]) b' /\ small (n + 20) le (l ++ [(t, d)]).
Proof.
  intros S Lh (Al & Ln) Hn Hd Hd2 Ht. pose proof (blen_nonneg d). destruct (st_add le hd l b t d S Lh Al ltac:(lia)) as (b' & E & S').
  exists b'. split; [exact E|]. split; [exact S'|]. split; [apply al_app; [exact Al|now apply al_one]|]. rewrite flat_len, one_len. lia.
Qed.
Lemma small_if le n hd l b c t d : st le hd l b -> blen hd = 24 -> small n le l -> n <= 1000 -> blen d mod 4 = 0 -> blen d <= 16 -> 0 <= t < 65536 ->
  exists b', addif c le b t d = Some b' /\ st le hd (l ++ opt c t d) b' /\ small (n + 20) le (l ++ opt c t d).
Proof.
  intros S Lh Sm Hn Hd Hd2 Ht. destruct c; cbn [addif opt]; [now apply small_add|]. exists b. rewrite app_nil_r. split; [reflexivity|]. split; [exact S|]. destruct Sm. split; [assumption|lia].
Qed.

Lemma new_route_bytes le x : args_ok x ->
  let A := flat_map (one le) (xattrs le x) in
  new_route le x = Some (h32 le (28 + blen A) ++ xhdr le x (if no_onlink x then Z.land (a_flags x) (Z.lnot 4) else a_flags x) ++ A) /\ al (xattrs le x) /\ blen A <= 1000.
Proof.
  intros (Hf & Ht & Hfl & _ & _ & _ & _ & Hp & Hd & Hs & Hg). cbv zeta.
  match goal with |- new_route le x = ?r /\ _ => change (hbind le x (fun b =>
    bind (addif ((a_set x || negb (a_similar x)) && negb (a_black x)) le b 4 (h32 le (a_if x))) (fun b =>
    bind (match a_src x with Some s => bind (rdn s 0 (fsize (a_fam x))) (fun s => addif (a_set x) le b 7 s) | None => Some b end) (fun b =>
    bind (addif (a_metric x >=? 0) le b 6 (h32 le (a_metric x))) (fun b =>
    bind (match a_gw x with
          | Some g => bind (rdn g 0 (fsize (a_fam x))) (addreq le b 5)
          | None =>
              if a_plen x =? 32 then bind (rdn (a_dst x) 0 (fsize (a_fam x))) (addreq le b 5)
              else bind (rdn b 24 4) (fun f => wr b 24 (h32 le (Z.land (hval le f) (Z.lnot 4))))
          end) (fun b =>
    bind (rdn (a_dst x) 0 (fsize (a_fam x))) (fun d =>
    bind (addreq le b 1 d) (sent le))))))) = r /\ al (xattrs le x) /\ blen (flat_map (one le) (xattrs le x)) <= 1000) end.
  rewrite header_ok. set (b0 := h32 le (28 + blen []) ++ _). set (H1 := xhdr le x (a_flags x)) in b0.
  assert (Lh : forall rf, blen (xhdr le x rf) = 24) by (intros; apply blen_hdr).
  assert (S0 : st le H1 [] b0) by (exists (repeat 0 1024); split; reflexivity).
  assert (M0 : small 0 le []) by (split; [constructor|reflexivity]).
  pose proof (fsize_le (a_fam x)) as (F1 & F2). unfold addr_ok in Hd, Hs, Hg. change (if a_fam x =? 2 then 4 else 16) with (fsize (a_fam x)) in Hd, Hs, Hg.
  destruct (small_if le 0 H1 [] b0 ((a_set x || negb (a_similar x)) && negb (a_black x)) 4 (h32 le (a_if x)) S0 (Lh _) M0) as (b1 & -> & S1 & M1); try (rewrite ?blen_h32; lia). cbn [bind app].
  set (l1 := [] ++ opt _ 4 _) in *.
  assert (X2 : exists b2, match a_src x with Some s => bind (rdn s 0 (fsize (a_fam x))) (fun s => addif (a_set x) le b1 7 s) | None => Some b1 end = Some b2 /\
     let l2 := l1 ++ match a_src x with Some s => opt (a_set x) 7 s | None => [] end in st le H1 l2 b2 /\ small 40 le l2).
  { destruct (a_src x) as [s|] eqn:Es.
    - specialize (Hs s eq_refl). rewrite (rdn_all s _ Hs). cbn [bind].
      destruct (small_if le (0 + 20) H1 l1 b1 (a_set x) 7 s S1 (Lh _) M1) as (b2 & -> & S2 & M2); try lia. exists b2. auto.
    - exists b1. split; [reflexivity|]. cbv zeta. rewrite app_nil_r. split; [exact S1|]. destruct M1. split; [assumption|lia]. }
  destruct X2 as (b2 & -> & X2). cbv zeta in X2. destruct X2 as (S2 & M2). set (l2 := l1 ++ _) in *. cbn [bind].
  destruct (small_if le 40 H1 l2 b2 (a_metric x >=? 0) 6 (h32 le (a_metric x)) S2 (Lh _) M2) as (b3 & -> & S3 & M3); try (rewrite ?blen_h32; lia). cbn [bind].
  set (l3 := l2 ++ _) in *.
  set (rf := if no_onlink x then Z.land (a_flags x) (Z.lnot 4) else a_flags x).
  assert (X4 : exists b4, match a_gw x with
          | Some g => bind (rdn g 0 (fsize (a_fam x))) (addreq le b3 5)
          | None =>
              if a_plen x =? 32 then bind (rdn (a_dst x) 0 (fsize (a_fam x))) (addreq le b3 5)
              else bind (rdn b3 24 4) (fun f => wr b3 24 (h32 le (Z.land (hval le f) (Z.lnot 4))))
          end = Some b4 /\
     let l4 := l3 ++ match a_gw x with Some g => [(5, g)] | None => opt (a_plen x =? 32) 5 (a_dst x) end in st le (xhdr le x rf) l4 b4 /\ small 80 le l4).
  { unfold rf, no_onlink. destruct (a_gw x) as [g|] eqn:Eg.
    - specialize (Hg g eq_refl). rewrite (rdn_all g _ Hg). cbn [bind].
      destruct (small_add le (40 + 20) H1 l3 b3 5 g S3 (Lh _) M3) as (b4 & -> & S4 & M4); try lia. exists b4. auto.
    - destruct (a_plen x =? 32); cbn [negb opt].
      + rewrite (rdn_all _ _ Hd). cbn [bind]. destruct (small_add le (40 + 20) H1 l3 b3 5 (a_dst x) S3 (Lh _) M3) as (b4 & -> & S4 & M4); try lia. exists b4. auto.
      + cbv zeta. rewrite app_nil_r. destruct (st_flags _ _ _ _ _ _ _ _ _ _ (Z.land (a_flags x) (Z.lnot 4)) _ _ S3) as (R & b4 & W & S4).
        rewrite R. cbn [bind]. rewrite hval_h32. unfold u32 at 1. rewrite Z.mod_small by lia. rewrite W. exists b4. split; [reflexivity|]. split; [exact S4|]. destruct M3. split; [assumption|lia]. }
  destruct X4 as (b4 & -> & X4). cbv zeta in X4. destruct X4 as (S4 & M4). set (l4 := l3 ++ _) in *. cbn [bind].
  rewrite (rdn_all _ _ Hd). cbn [bind].
  destruct (small_add le 80 (xhdr le x rf) l4 b4 1 (a_dst x) S4 (Lh _) M4) as (b5 & -> & S5 & M5); try lia. cbn [bind].
  assert (EX : xattrs le x = l4 ++ [(1, a_dst x)]). { unfold l4, l3, l2, l1, xattrs. cbn [app]. rewrite <- !app_assoc. reflexivity. }
  rewrite EX. split; [apply st_sent; [exact S5|apply Lh]|]. destruct M5. split; [assumption|lia].
Qed.

Lemma new_route_reads le x : args_ok x -> exists m, new_route le x = Some m /\
  reads le m (mkQ (if a_set x then 24 else 25) (if a_set x then 1285 else 5) (u8 (a_fam x)) (u8 (a_plen x)) 0 0 (if a_table x <? 256 then a_table x else 0)
      (if a_set x then u8 (a_proto x) else 0) (if negb (a_set x) && a_similar x then 255 else u8 (a_scope x)) (if a_black x then 6 else 1)
      (if no_onlink x then Z.land (a_flags x) (Z.lnot 4) else a_flags x) (xattrs le x)).
Proof.
  intros H. destruct (new_route_bytes le x H) as (E & Al & L). eexists. split; [exact E|].
  assert (Hfl : 0 <= a_flags x < 2 ^ 32) by apply H.
  set (rf := if no_onlink x then _ else _). assert (Hr : u32 rf = rf).
  { unfold u32. change 4294967296 with (2 ^ 32). unfold rf. destruct (no_onlink x); [|apply Z.mod_small; lia].
    rewrite <- Z.land_ones by lia. rewrite <- Z.land_assoc, (Z.land_comm (Z.lnot 4)), Z.land_assoc. rewrite Z.land_ones by lia. f_equal. apply Z.mod_small; lia. }
  rewrite <- Hr at 2. apply reads_ok; [destruct (a_set x); lia|destruct (a_set x); lia|lia|]. apply attrs_enc. exact Al.
Qed.

(** policy rules *)
Lemma rule_reads le family rttable prio ifname set : byte family -> (forall n, ifname = Some n -> blen n <= 16) ->
  exists m, policy_rule le family rttable prio ifname set = Some m /\
  reads le m (mkQ (if set then 32 else 33) 1541 family 0 0 0 (u8 rttable) 0 0 1 0
    ((6, h32 le prio) :: match ifname with Some n => [(3, n)] | None => [] end)).
Proof.
  intros Hf Hn. unfold policy_rule, rtreq0. set (R := repeat 0 1024). assert (ER : repeat 0 28 ++ R = repeat 0 4 ++ repeat 0 24 ++ R) by reflexivity. rewrite ER.
  set (H28 := h32 le 28). assert (L28 : blen H28 = 4) by apply blen_h32.
  rewrite (wr_is _ [] (repeat 0 4) (repeat 0 24 ++ R)); [|reflexivity|reflexivity|now rewrite L28]. cbn [bind].
  rewrite (wr_is _ (H28 ++ repeat 0 2) (repeat 0 2) (repeat 0 20 ++ R)); [|now rewrite <- !app_assoc|rewrite blen_app, L28; reflexivity|now rewrite blen_h16]. cbn [bind].
  set (fl := h16 le _). assert (Lfl : blen fl = 2) by apply blen_h16.
  rewrite (wr_is _ H28 (repeat 0 2) (fl ++ repeat 0 20 ++ R)); [|now rewrite <- !app_assoc|lia|now rewrite blen_h16]. cbn [bind].
  set (ty := h16 le (if set then 32 else 33)). assert (Lty : blen ty = 2) by apply blen_h16.
  set (P := H28 ++ ty ++ fl ++ repeat 0 8). assert (LP : blen P = 16) by (unfold P; rewrite !blen_app; change (blen (repeat 0 8)) with 8; lia).
  rewrite (wr_is _ P [0] (repeat 0 11 ++ R)); [|unfold P; now rewrite <- !app_assoc|lia|reflexivity]. cbn [bind].
  replace (u8 family) with family by (unfold u8, byte in *; rewrite Z.mod_small; lia).
  rewrite (wr_is _ (P ++ [family; 0; 0; 0]) [0] (repeat 0 7 ++ R)); [|now rewrite <- !app_assoc|rewrite blen_app; change (blen [family; 0; 0; 0]) with 4; lia|reflexivity]. cbn [bind].
  rewrite (wr_is _ (P ++ [family; 0; 0; 0; u8 rttable; 0; 0]) [0] (repeat 0 4 ++ R)); [|now rewrite <- !app_assoc|rewrite blen_app; change (blen [family; 0; 0; 0; u8 rttable; 0; 0]) with 7; lia|reflexivity]. cbn [bind].
  set (H1 := hdr le (if set then 32 else 33) 1541 family 0 (u8 rttable) 0 0 1 0). set (b0 := (P ++ _) ++ _).
  assert (S0 : st le H1 [] b0). { exists R. split; [|reflexivity]. unfold b0, H1, hdr, P. cbn [flat_map]. change (28 + blen []) with 28. fold H28. replace (h32 le 0) with (repeat 0 4) by (now destruct le). now rewrite <- !app_assoc. }
  assert (Lh : blen H1 = 24) by apply blen_hdr.
  destruct (small_add le 0 H1 [] b0 6 (h32 le prio) S0 Lh) as (b1 & -> & S1 & M1); try (rewrite ?blen_h32; lia). { split; [constructor|reflexivity]. }
  cbn [bind app] in *. destruct M1 as (A1 & N1).
  destruct ifname as [n|].
  - specialize (Hn n eq_refl). destruct (st_add le H1 _ b1 3 n S1 Lh A1 ltac:(lia)) as (b2 & -> & S2). cbn [bind].
    rewrite (st_sent _ _ _ _ S2 Lh). eexists. split; [reflexivity|]. pose proof (st_len _ _ _ _ S2). cbn [app] in *.
    change 0 with (u32 0) at 6. apply reads_ok; [destruct set; lia|lia|lia|]. apply (attrs_enc_last le [(6, h32 le prio)] 3 n); [exact A1|lia|lia].
  - cbn [bind]. rewrite (st_sent _ _ _ _ S1 Lh). eexists. split; [reflexivity|].
    change 0 with (u32 0) at 6. apply reads_ok; [destruct set; lia|lia|lia|]. now apply attrs_enc.
Qed.

(** the kernel's answers *)
Lemma blen_ack le e m : 16 <= blen m -> blen (ack le e m) = if e =? 0 then 36 else 20 + blen m.
Proof.
  intros L. unfold ack. cbv zeta. rewrite !blen_app, !blen_h32, blen_h16. change (blen (repeat 0 10)) with 10. destruct (e =? 0); [rewrite slice_length by lia; lia|lia].
Qed.
Lemma send_ack le e m : 0 <= e < 4096 -> 28 <= blen m <= 1000 -> netlink_send le true (Some (ack le e m)) = e.
Proof.
  intros He Hm. unfold netlink_send. cbn [negb]. pose proof (blen_ack le e m ltac:(lia)) as L.
  assert (L2 : 36 <= blen (ack le e m) <= 1020) by (rewrite L; destruct (e =? 0); lia).
  rewrite firstn_all2 by (unfold blen in L2; lia). set (r := ack le e m) in *. replace (blen r <=? 0) with false by lia.
  set (body := h32 le (- e) ++ (if e =? 0 then slice m 0 16 else m)).
  assert (E : r = h32 le (16 + blen body) ++ h16 le 2 ++ repeat 0 10 ++ body) by reflexivity.
  assert (Lb : blen r = 16 + blen body) by (rewrite E, !blen_app, blen_h32, blen_h16; change (blen (repeat 0 10)) with 10; lia).
  rewrite (slice_is r [] (h32 le (16 + blen body)) (h16 le 2 ++ repeat 0 10 ++ body)); [|exact E|reflexivity|now rewrite blen_h32].
  rewrite hval_h32. unfold u32 at 1 2 3. rewrite Z.mod_small by lia. replace ((16 <=? blen r) && (16 <=? 16 + blen body) && (16 + blen body <=? blen r)) with true by lia. cbn [negb].
  rewrite (slice_is r (h32 le (16 + blen body)) (h16 le 2) (repeat 0 10 ++ body)); [|exact E|now rewrite blen_h32|now rewrite blen_h16]. rewrite hval_h16 by lia. cbn [negb Z.eqb Pos.eqb].
  replace (36 >? 16 + blen body) with false by lia.
  rewrite (slice_is r (h32 le (16 + blen body) ++ h16 le 2 ++ repeat 0 10) (h32 le (- e)) (if e =? 0 then slice m 0 16 else m)).
  - rewrite hval_h32. unfold u32. destruct (Z.eq_dec e 0) as [->|N]; [reflexivity|].
    replace (- e mod 4294967296) with (4294967296 - e) by lia. change (2 ^ 31) with 2147483648. change (2 ^ 32) with 4294967296. replace (4294967296 - e <? 2147483648) with false by lia. lia.
  - rewrite E. unfold body. now rewrite <- !app_assoc.
  - rewrite !blen_app, blen_h32, blen_h16. reflexivity.
  - now rewrite blen_h32.
Qed.
Lemma run_paired le : forall l, Forall (fun '(sok, rok, a) => sok = true /\ rok = true /\ exists e m, a = ack le e m /\ 0 <= e < 4096 /\ 28 <= blen m <= 1000) l ->
  Forall2 (fun r '(_, _, a) => exists m, a = ack le r m) (sock_run le [] l) l.
Proof.
  induction 1 as [|[[sok rok] a] l (-> & -> & e & m & -> & He & Hm) _ IH]; [constructor|]. cbn [sock_run sock_step negb app hd_error tl].
  constructor; [exists m; now rewrite send_ack|exact IH].
Qed.

(** all about the values of attributes *)
Lemma values_ok le x : let q := mkQ (if a_set x then 24 else 25) (if a_set x then 1285 else 5) (u8 (a_fam x)) (u8 (a_plen x)) 0 0 (if a_table x <? 256 then a_table x else 0)
      (if a_set x then u8 (a_proto x) else 0) (if negb (a_set x) && a_similar x then 255 else u8 (a_scope x)) (if a_black x then 6 else 1)
      (if no_onlink x then Z.land (a_flags x) (Z.lnot 4) else a_flags x) (xattrs le x) in
  values q 1 = [a_dst x] /\ values q 15 = [] /\
  values q 5 = match a_gw x with Some g => [g] | None => if a_plen x =? 32 then [a_dst x] else [] end /\
  values q 4 = (if (a_set x || negb (a_similar x)) && negb (a_black x) then [h32 le (a_if x)] else []) /\
  values q 6 = (if a_metric x >=? 0 then [h32 le (a_metric x)] else []) /\
  values q 7 = match a_src x with Some s => if a_set x then [s] else [] | None => [] end /\
  (forall t, t <> 1 -> t <> 4 -> t <> 5 -> t <> 6 -> t <> 7 -> values q t = []).
Proof.
  unfold values, xattrs. cbn [q_attrs].
  assert (F : forall t, t <> 1 -> t <> 4 -> t <> 5 -> t <> 6 -> t <> 7 -> map snd (filter (fun a => fst a =? t) (xattrs le x)) = []).
  { intros t N1 N4 N5 N6 N7. unfold xattrs.
    destruct ((a_set x || negb (a_similar x)) && negb (a_black x)), (a_src x) as [s|], (a_set x), (a_metric x >=? 0), (a_gw x) as [g|], (a_plen x =? 32); cbn [opt app filter fst];
    rewrite ?(proj2 (Z.eqb_neq 1 t)), ?(proj2 (Z.eqb_neq 4 t)), ?(proj2 (Z.eqb_neq 5 t)), ?(proj2 (Z.eqb_neq 6 t)), ?(proj2 (Z.eqb_neq 7 t)) by congruence; reflexivity. }
  revert F. unfold xattrs.
  destruct ((a_set x || negb (a_similar x)) && negb (a_black x)), (a_src x) as [s|], (a_set x), (a_metric x >=? 0), (a_gw x) as [g|], (a_plen x =? 32); intros F;
  do 6 (split; [reflexivity|]); exact F.
Qed.
Lemma route_q le x m q : args_ok x -> new_route le x = Some m -> reads le m q ->
  q_type q = (if a_set x then 24 else 25) /\ q_nlflags q = (if a_set x then 1285 else 5) /\ q_family q = a_fam x /\ q_dstlen q = a_plen x /\ q_srclen q = 0 /\ q_tos q = 0 /\
  q_table q = (if a_table x <? 256 then a_table x else 0) /\ q_proto q = (if a_set x then u8 (a_proto x) else 0) /\
  q_scope q = (if negb (a_set x) && a_similar x then 255 else a_scope x) /\ q_rtype q = (if a_black x then 6 else 1) /\
  q_flags q = (if no_onlink x then Z.land (a_flags x) (Z.lnot 4) else a_flags x) /\
  values q 1 = [a_dst x] /\ values q 15 = [] /\
  values q 5 = match a_gw x with Some g => [g] | None => if a_plen x =? 32 then [a_dst x] else [] end /\
  values q 4 = (if (a_set x || negb (a_similar x)) && negb (a_black x) then [h32 le (a_if x)] else []) /\
  values q 6 = (if a_metric x >=? 0 then [h32 le (a_metric x)] else []) /\
  values q 7 = match a_src x with Some s => if a_set x then [s] else [] | None => [] end /\
  (forall t, t <> 1 -> t <> 4 -> t <> 5 -> t <> 6 -> t <> 7 -> values q t = []).
Proof.
  intros A E R. destruct (new_route_reads le x A) as (m' & E' & R'). rewrite E in E'. apply Some_inj in E'. subst m'. rewrite (reads_unique _ _ _ _ R R'). clear R R' q.
  destruct A as (Hf & _ & _ & Hs & _ & _ & _ & Hp & _). unfold byte in *.
  assert (E1 : u8 (a_fam x) = a_fam x) by (unfold u8; apply Z.mod_small; lia). assert (E2 : u8 (a_plen x) = a_plen x) by (unfold u8; apply Z.mod_small; lia).
  assert (E3 : u8 (a_scope x) = a_scope x) by (unfold u8; apply Z.mod_small; lia).
  pose proof (values_ok le x) as V. cbv zeta in V. rewrite E1, E2, E3 in *. cbn [q_type q_nlflags q_family q_dstlen q_srclen q_tos q_table q_proto q_scope q_rtype q_flags].
  do 11 (split; [reflexivity|]). exact V.
Qed.
