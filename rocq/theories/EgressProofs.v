(** Proofs about the egress file reader: the syntax of its lines. *)
From Verif Require Import Base Regex NameSvcSpec NameSvcProofs GwSpeed IpCalc IpProofs Egress JsonSpec EgressSpec.

(** ** Classes *)
Lemma spacec_ok c : spacec c = true <-> is_blank c.
Proof. unfold spacec, is_blank. lia. Qed.
Lemma digitc_ok c : digitc c = true <-> is_digit c.
Proof. unfold digitc, is_digit. lia. Qed.
Lemma ipc_ok c : ipc c = true <-> is_ipchar c.
Proof. unfold ipc, is_ipchar, oneof, digitc, is_digit. cbn [existsb]. lia. Qed.
Lemma ifnc_ok c : ifnc c = true <-> ~ is_blank c /\ c <> 61.
Proof. unfold ifnc, spacec, is_blank. lia. Qed.
Lemma Forall_cls (f : Z -> bool) (P : Z -> Prop) l : (forall c, f c = true <-> P c) -> Forall (fun c => f c = true) l <-> Forall P l.
Proof. intros H. split; intros F; eapply Forall_impl; try exact F; cbn; intros a; apply H. Qed.

(** ** Runs of a class *)
Lemma span_split f l : forall a b, span f l = (a, b) -> l = a ++ b /\ Forall (fun c => f c = true) a /\ match b with [] => True | c :: _ => f c = false end.
Proof.
  induction l as [|c l IH]; intros a b E; cbn [span] in E; [inversion E; subst; repeat split; constructor|].
  destruct (f c) eqn:Fc; [|inversion E; subst; repeat split; [constructor|exact Fc]].
  destruct (span f l) as [a' b'] eqn:Es. inversion E; subst. destruct (IH a' b eq_refl) as (-> & F & N). repeat split; [constructor; assumption|exact N].
Qed.
Lemma span_app f a b : Forall (fun c => f c = true) a -> match b with [] => True | c :: _ => f c = false end -> span f (a ++ b) = (a, b).
Proof.
  intros F N. induction F as [|c a Fc F IH]; cbn [app span]; [destruct b as [|c b]; cbn [span]; [reflexivity|now rewrite N]|].
  now rewrite Fc, IH.
Qed.
Lemma skip_split l : exists b, Forall is_blank b /\ l = b ++ skip l /\ match skip l with [] => True | c :: _ => ~ is_blank c end.
Proof.
  unfold skip. destruct (span spacec l) as [a b] eqn:E. destruct (span_split _ _ _ _ E) as (-> & F & N). exists a. split; [now apply (Forall_cls spacec is_blank _ spacec_ok)|].
  split; [reflexivity|]. cbn [snd]. destruct b as [|c b]; [exact N|]. intros B. apply spacec_ok in B. congruence.
Qed.
Lemma skip_app b l : Forall is_blank b -> skip (b ++ l) = skip l.
Proof.
  intros F. unfold skip. induction F as [|c b Hc F IH]; [reflexivity|]. cbn [app span]. apply spacec_ok in Hc. rewrite Hc.
  destruct (span spacec (b ++ l)) as [x y]. cbn [snd] in *. exact IH.
Qed.
Lemma skip_id c l : ~ is_blank c -> skip (c :: l) = c :: l.
Proof. intros N. unfold skip. cbn [span]. destruct (spacec c) eqn:E; [apply spacec_ok in E; contradiction|reflexivity]. Qed.
Lemma skip_blanks b : Forall is_blank b -> skip b = [].
Proof. intros F. rewrite <- (app_nil_r b), skip_app by exact F. reflexivity. Qed.
Lemma skip_skip l : skip (skip l) = skip l.
Proof. destruct (skip_split l) as (b & _ & _ & N). destruct (skip l) as [|c r]; [reflexivity|now apply skip_id]. Qed.
Lemma blank_ok l : blank l = true <-> Forall is_blank l.
Proof.
  unfold blank. destruct (skip_split l) as (b & F & E & N). split.
  - destruct (skip l) as [|c r]; [|discriminate]. intros _. rewrite app_nil_r in E. now subst l.
  - intros H. now rewrite skip_blanks.
Qed.
Lemma sep_inv s l r : sep s l = Some r -> exists x, separator s x /\ l = x ++ r.
Proof.
  unfold sep. destruct (skip_split l) as (b & F & E & N). destruct (skip l) as [|c l'] eqn:Es; [discriminate|].
  destruct (Z.eqb_spec c s) as [->|]; [|discriminate]. intros H. apply Some_inj in H. subst r.
  destruct (skip_split l') as (b' & F' & E' & _). exists (b ++ s :: b'). split; [exists b, b'; repeat split; assumption|].
  rewrite <- app_assoc. cbn [app]. now rewrite <- E'.
Qed.
Lemma sep_app s x r : ~ is_blank s -> separator s x -> sep s (x ++ r) = Some (skip r).
Proof.
  intros N (a & b & Fa & Fb & ->). unfold sep. rewrite <- app_assoc, skip_app by exact Fa. cbn [app]. rewrite skip_id by exact N.
  rewrite Z.eqb_refl. now rewrite skip_app.
Qed.
Lemma sep_skip s l : sep s (skip l) = sep s l.
Proof. unfold sep. now rewrite skip_skip. Qed.
Lemma blank_skip l : blank (skip l) = blank l.
Proof. unfold blank. now rewrite skip_skip. Qed.
Lemma comma : ~ is_blank 44. Proof. unfold is_blank. lia. Qed.

(** the rest of a line after a field: nothing but blanks, or blanks and a character of [s] *)
Definition after (P : Z -> Prop) (l : list Z) : Prop := match skip l with [] => True | c :: _ => P c end.
Lemma field_run f ds rest : (forall c, f c = true -> ~ is_blank c) -> Forall (fun c => f c = true) ds -> after (fun c => f c = false) rest ->
  exists rest', span f (skip (ds ++ rest)) = (ds, rest') /\ skip rest' = skip rest.
Proof.
  intros Nb F A. destruct ds as [|d ds].
  - cbn [app]. exists (skip rest). split; [|apply skip_skip]. unfold after in A. rewrite <- (app_nil_l (skip rest)). apply span_app; [constructor|exact A].
  - exists rest. split; [|reflexivity]. inversion F; subst. cbn [app]. rewrite skip_id by now apply Nb.
    change (d :: ds ++ rest) with ((d :: ds) ++ rest). apply span_app; [exact F|]. unfold after in A. destruct (skip_split rest) as (b & Fb & E & N).
    destruct rest as [|c rest]; [trivial|]. destruct (f c) eqn:Fc; [|reflexivity]. exfalso. rewrite skip_id in A by now apply Nb. congruence.
Qed.
Lemma after_sep (P : Z -> Prop) s x r : ~ is_blank s -> P s -> separator s x -> after P (x ++ r).
Proof. intros N H (a & b & Fa & _ & ->). unfold after. rewrite <- app_assoc, skip_app by exact Fa. cbn [app]. now rewrite skip_id. Qed.
Lemma after_blank (P : Z -> Prop) b : Forall is_blank b -> after P b.
Proof. intros F. unfold after. now rewrite skip_blanks. Qed.
Lemma digit_nb c : digitc c = true -> ~ is_blank c. Proof. unfold digitc, is_blank. lia. Qed.
Lemma ipc_nb c : ipc c = true -> ~ is_blank c. Proof. rewrite ipc_ok. unfold is_ipchar, is_digit, is_blank. lia. Qed.

(** ** The parts of a line, as read *)
Lemma group12_skip l l' : skip l = skip l' -> group12 l = group12 l'.
Proof. intros E. unfold group12. rewrite <- (sep_skip _ l), <- (sep_skip _ l'), <- (blank_skip l), <- (blank_skip l'), E. reflexivity. Qed.
Lemma group12_inv l g : group12 l = Some g -> exists r b, l = r ++ b /\ gw_part g r /\ Forall is_blank b.
Proof.
  unfold group12. destruct (sep 44 l) as [l'|] eqn:Es.
  - destruct (span ipc l') as [gw r] eqn:E. destruct (blank r) eqn:B; [|discriminate]. intros H. apply Some_inj in H. subst g.
    destruct (sep_inv _ _ _ Es) as (x & S & ->). destruct (span_split _ _ _ _ E) as (-> & F & _). exists (x ++ gw), r. rewrite <- app_assoc. split; [reflexivity|].
    split; [|now apply blank_ok]. constructor; [exact S|]. now apply (Forall_cls ipc is_ipchar _ ipc_ok).
  - destruct (blank l) eqn:B; [|discriminate]. intros H. apply Some_inj in H. subst g. exists [], l. split; [reflexivity|]. split; [constructor|now apply blank_ok].
Qed.
Lemma sep_blanks s b : Forall is_blank b -> sep s b = None.
Proof. intros F. unfold sep. now rewrite skip_blanks. Qed.
Lemma group12_ok g r b : gw_part g r -> Forall is_blank b -> group12 (r ++ b) = Some g.
Proof.
  intros G F. destruct G as [|s gw S Fg]; cbn [app].
  - unfold group12. rewrite sep_blanks by exact F. assert (B : blank b = true) by now apply blank_ok. now rewrite B.
  - unfold group12. rewrite <- app_assoc, (sep_app 44 s _ comma S).
    destruct (field_run ipc gw b ipc_nb) as (r' & E & Sk); [now apply (Forall_cls ipc is_ipchar _ ipc_ok)|now apply after_blank|].
    rewrite E. assert (B : blank r' = true) by (unfold blank; rewrite Sk, skip_blanks by exact F; reflexivity). now rewrite B.
Qed.
Lemma gw_after f g r b : f 44 = false -> gw_part g r -> Forall is_blank b -> after (fun c => f c = false) (r ++ b).
Proof. intros H G F. destruct G as [|s gw S Fg]; [now apply after_blank|]. rewrite <- app_assoc. apply (after_sep _ 44); [apply comma|exact H|exact S]. Qed.
Lemma group8_skip l l' : skip l = skip l' -> group8 l = group8 l'.
Proof. intros E. unfold group8. rewrite <- (sep_skip _ l), <- (sep_skip _ l'), <- (blank_skip l), <- (blank_skip l'), E. reflexivity. Qed.
Lemma group8_inv l n g : group8 l = Some (n, g) -> exists r b, l = r ++ b /\ net_part n g r /\ Forall is_blank b.
Proof.
  unfold group8. destruct (sep 44 l) as [l'|] eqn:Es.
  - destruct (sep_inv _ _ _ Es) as (x & S & ->). destruct (span ipc l') as [ip r] eqn:E. destruct (span_split _ _ _ _ E) as (-> & F & _).
    destruct ip as [|i ip].
    + cbn [app]. destruct (group12 r) as [gw|] eqn:G; [|discriminate]. cbn [option_map]. intros H. apply Some_inj in H. inversion H; subst.
      destruct (group12_inv _ _ G) as (r1 & b & -> & Gp & Fb). exists (x ++ r1), b. rewrite <- app_assoc. split; [reflexivity|]. split; [now constructor|exact Fb].
    + destruct r as [|c r]; [discriminate|]. destruct (Z.eqb_spec c 47) as [->|]; [|discriminate]. destruct (span digitc r) as [ln r'] eqn:E2.
      destruct (span_split _ _ _ _ E2) as (-> & F2 & _). destruct ln as [|d ln]; [discriminate|]. destruct (group12 r') as [gw|] eqn:G; [|discriminate].
      cbn [option_map]. intros H. apply Some_inj in H. inversion H; subst. destruct (group12_inv _ _ G) as (r1 & b & -> & Gp & Fb).
      exists (x ++ (i :: ip) ++ 47 :: (d :: ln) ++ r1), b. split; [repeat (rewrite <- ?app_assoc; cbn [app]); reflexivity|]. split; [|exact Fb].
      constructor; try assumption; try discriminate; [now apply (Forall_cls ipc is_ipchar _ ipc_ok)|now apply (Forall_cls digitc is_digit _ digitc_ok)].
  - destruct (blank l) eqn:B; [|discriminate]. intros H. apply Some_inj in H. inversion H; subst. exists [], l. split; [reflexivity|]. split; [constructor|now apply blank_ok].
Qed.
Lemma group8_ok n g r b : net_part n g r -> Forall is_blank b -> group8 (r ++ b) = Some (n, g).
Proof.
  intros N F. destruct N as [|s g r S G|s ip len g r S Ni Fi Nl Fl G]; cbn [app].
  - unfold group8. rewrite sep_blanks by exact F. assert (B : blank b = true) by now apply blank_ok. now rewrite B.
  - unfold group8. rewrite <- app_assoc, (sep_app 44 s _ comma S).
    destruct (field_run ipc [] (r ++ b) ipc_nb) as (r' & E & Sk); [constructor|now apply (gw_after ipc g)|]. cbn [app] in E. rewrite E.
    rewrite (group12_skip _ (r ++ b)) by apply skip_skip. now rewrite (group12_ok g).
  - unfold group8. repeat (rewrite <- ?app_assoc; cbn [app]). rewrite (sep_app 44 s _ comma S).
    assert (Fi' : Forall (fun c => ipc c = true) ip) by now apply (Forall_cls ipc is_ipchar _ ipc_ok).
    destruct ip as [|i ip]; [congruence|]. cbn [app]. rewrite skip_id by (inversion Fi'; subst; now apply ipc_nb).
    change (i :: ip ++ 47 :: len ++ r ++ b) with ((i :: ip) ++ 47 :: len ++ r ++ b). rewrite span_app; [|exact Fi'|reflexivity]. cbn [Z.eqb Pos.eqb].
    assert (H : match r ++ b with [] => True | c :: _ => digitc c = false end).
    { pose proof (gw_after digitc g r b eq_refl G F) as A. unfold after in A. destruct (r ++ b) as [|c t]; [trivial|]. destruct (digitc c) eqn:D; [|reflexivity].
      rewrite skip_id in A by now apply digit_nb. congruence. }
    rewrite span_app; [|now apply (Forall_cls digitc is_digit _ digitc_ok)|exact H]. destruct len as [|d len]; [congruence|]. now rewrite (group12_ok g).
Qed.
Lemma net_after f n g r b : f 44 = false -> net_part n g r -> Forall is_blank b -> after (fun c => f c = false) (r ++ b).
Proof.
  intros H G F. destruct G as [|s g r S G|s ip len g r S Ni Fi Nl Fl G]; [now apply after_blank| |]; rewrite <- app_assoc; (apply (after_sep _ 44); [apply comma|exact H|exact S]).
Qed.
Lemma group6_skip l l' : skip l = skip l' -> group6 l = group6 l'.
Proof. intros E. unfold group6. rewrite <- (sep_skip _ l), <- (sep_skip _ l'), <- (blank_skip l), <- (blank_skip l'), E. reflexivity. Qed.
Lemma group6_inv l p n g : group6 l = Some (p, (n, g)) -> exists r b, l = r ++ b /\ cost_part p n g r /\ Forall is_blank b.
Proof.
  unfold group6. destruct (sep 44 l) as [l'|] eqn:Es.
  - destruct (sep_inv _ _ _ Es) as (x & S & ->). destruct (span digitc l') as [pc r] eqn:E. destruct (span_split _ _ _ _ E) as (-> & F & _).
    destruct (group8 r) as [[n' g']|] eqn:G; [|discriminate]. cbn [option_map]. intros H. apply Some_inj in H. inversion H; subst.
    destruct (group8_inv _ _ _ G) as (r1 & b & -> & Gp & Fb). exists (x ++ pc ++ r1), b. rewrite <- !app_assoc. split; [reflexivity|].
    split; [|exact Fb]. constructor; [exact S|now apply (Forall_cls digitc is_digit _ digitc_ok)|exact Gp].
  - destruct (blank l) eqn:B; [|discriminate]. intros H. apply Some_inj in H. inversion H; subst. exists [], l. split; [reflexivity|]. split; [constructor|now apply blank_ok].
Qed.
Lemma group6_ok p n g r b : cost_part p n g r -> Forall is_blank b -> group6 (r ++ b) = Some (p, (n, g)).
Proof.
  intros N F. destruct N as [|s pc n g r S Fp N]; cbn [app].
  - unfold group6. rewrite sep_blanks by exact F. assert (B : blank b = true) by now apply blank_ok. now rewrite B.
  - unfold group6. rewrite <- !app_assoc, (sep_app 44 s _ comma S).
    destruct (field_run digitc pc (r ++ b) digit_nb) as (r' & E & Sk); [now apply (Forall_cls digitc is_digit _ digitc_ok)|now apply (net_after digitc n g)|].
    rewrite E, (group8_skip _ (r ++ b) Sk). now rewrite (group8_ok n g).
Qed.
Lemma cost_after f p n g r b : f 44 = false -> cost_part p n g r -> Forall is_blank b -> after (fun c => f c = false) (r ++ b).
Proof. intros H G F. destruct G as [|s pc n g r S Fp N]; [now apply after_blank|]. rewrite <- app_assoc. apply (after_sep _ 44); [apply comma|exact H|exact S]. Qed.

(** ** The whole line *)
Lemma digits_of l : Forall (fun c => digitc c = true) l <-> Forall is_digit l.
Proof. apply (Forall_cls digitc is_digit l digitc_ok). Qed.
Lemma equals : ~ is_blank 61. Proof. unfold is_blank. lia. Qed.
Lemma egress_groups_inv l g : egress_groups l = Some g -> egress_line l g.
Proof.
  unfold egress_groups. destruct (skip_split l) as (b & Fb & El & _). destruct (span ifnc (skip l)) as [name l1] eqn:E1. destruct (span_split _ _ _ _ E1) as (S1 & F1 & _).
  rewrite S1 in El. clear E1 S1. destruct name as [|c0 name]; [discriminate|].
  destruct (sep 61 l1) as [l2|] eqn:P1; [|discriminate]. destruct (sep_inv _ _ _ P1) as (x1 & X1 & ->). clear P1.
  destruct (span digitc l2) as [rn l3] eqn:E2. destruct (span_split _ _ _ _ E2) as (-> & F2 & _). clear E2.
  destruct (sep 44 l3) as [l4|] eqn:P2; [|discriminate]. destruct (sep_inv _ _ _ P2) as (x2 & X2 & ->). clear P2.
  destruct (span digitc l4) as [rg l5] eqn:E3. destruct (span_split _ _ _ _ E3) as (-> & F3 & _). clear E3.
  destruct (sep 44 l5) as [l6|] eqn:P3; [|discriminate]. destruct (sep_inv _ _ _ P3) as (x3 & X3 & ->). clear P3.
  destruct (span digitc l6) as [up l7] eqn:E4. destruct (span_split _ _ _ _ E4) as (-> & F4 & _). clear E4.
  destruct (sep 44 l7) as [l8|] eqn:P4; [|discriminate]. destruct (sep_inv _ _ _ P4) as (x4 & X4 & ->). clear P4.
  destruct (span digitc l8) as [down l9] eqn:E5. destruct (span_split _ _ _ _ E5) as (-> & F5 & _). clear E5.
  destruct (group6 l9) as [(p & n & gw)|] eqn:G; [|discriminate]. cbn [option_map fst snd]. intros H. apply Some_inj in H. subst g.
  destruct (group6_inv _ _ _ _ G) as (r & b' & -> & C & Fb').
  exists b, x1, x2, x3, x4, r, b'. cbn [g_name g_rn g_rg g_up g_down g_cost g_net g_gw].
  split; [exact El|]. split; [exact Fb|]. split; [exact Fb'|]. split; [discriminate|]. split; [now apply (Forall_cls ifnc (fun c => ~ is_blank c /\ c <> 61) _ ifnc_ok)|].
  split; [exact X1|]. split; [exact X2|]. split; [exact X3|]. split; [exact X4|].
  split; [now apply digits_of|]. split; [now apply digits_of|]. split; [now apply digits_of|]. split; [now apply digits_of|]. exact C.
Qed.
Lemma field_step {A} x ds rest (k : list Z -> list Z -> option A) : separator 44 x -> Forall is_digit ds -> after (fun c => digitc c = false) rest ->
  (forall d l l', skip l = skip l' -> k d l = k d l') ->
  match sep 44 (x ++ ds ++ rest) with None => None | Some l => let (d, l') := span digitc l in k d l' end = k ds rest.
Proof.
  intros X F A0 K. rewrite (sep_app 44 x _ comma X). destruct (field_run digitc ds rest digit_nb) as (r' & E & Sk); [now apply digits_of|exact A0|].
  rewrite E. now apply K.
Qed.
Lemma egress_groups_ok l g : egress_line l g -> egress_groups l = Some g.
Proof.
  intros (b & x1 & x2 & x3 & x4 & r & b' & -> & Fb & Fb' & Nn & Fn & X1 & X2 & X3 & X4 & D1 & D2 & D3 & D4 & C).
  destruct g as [name rn rg up down p n gw]. cbn [g_name g_rn g_rg g_up g_down g_cost g_net g_gw] in *. unfold egress_groups. rewrite skip_app by exact Fb.
  assert (Fn' : Forall (fun c => ifnc c = true) name) by now apply (Forall_cls ifnc (fun c => ~ is_blank c /\ c <> 61) _ ifnc_ok).
  destruct name as [|c0 name]; [congruence|]. set (T := x1 ++ _).
  replace (skip ((c0 :: name) ++ T)) with ((c0 :: name) ++ T) by (cbn [app]; rewrite skip_id; [reflexivity|now inversion Fn]).
  assert (HT : match T with [] => True | c :: _ => ifnc c = false end).
  { subst T. destruct X1 as (a & a' & Fa & _ & ->). destruct a as [|c a]; cbn [app]; [reflexivity|]. inversion Fa as [|? ? B]; subst. apply spacec_ok in B. unfold ifnc. rewrite B. reflexivity. }
  rewrite (span_app ifnc (c0 :: name) T Fn' HT). subst T. rewrite (sep_app 61 x1 _ equals X1).
  assert (G : forall d l l', skip l = skip l' -> option_map (fun t => mkG (c0 :: name) rn rg up d (fst t) (fst (snd t)) (snd (snd t))) (group6 l) = option_map (fun t => mkG (c0 :: name) rn rg up d (fst t) (fst (snd t)) (snd (snd t))) (group6 l')).
  { intros d l l' E. now rewrite (group6_skip _ _ E). }
  destruct (field_run digitc rn (x2 ++ rg ++ x3 ++ up ++ x4 ++ down ++ r ++ b') digit_nb) as (r1 & E1 & Sk1); [now apply digits_of|apply (after_sep _ 44); [apply comma|reflexivity|exact X2]|].
  rewrite E1. rewrite <- (sep_skip 44 r1), Sk1, sep_skip, (sep_app 44 x2 _ comma X2).
  destruct (field_run digitc rg (x3 ++ up ++ x4 ++ down ++ r ++ b') digit_nb) as (r2 & E2 & Sk2); [now apply digits_of|apply (after_sep _ 44); [apply comma|reflexivity|exact X3]|].
  rewrite E2. rewrite <- (sep_skip 44 r2), Sk2, sep_skip, (sep_app 44 x3 _ comma X3).
  destruct (field_run digitc up (x4 ++ down ++ r ++ b') digit_nb) as (r3 & E3 & Sk3); [now apply digits_of|apply (after_sep _ 44); [apply comma|reflexivity|exact X4]|].
  rewrite E3. rewrite <- (sep_skip 44 r3), Sk3, sep_skip, (sep_app 44 x4 _ comma X4).
  destruct (field_run digitc down (r ++ b') digit_nb) as (r4 & E4 & Sk4); [now apply digits_of|now apply (cost_after digitc p n gw)|].
  rewrite E4. rewrite (group6_skip _ _ Sk4), (group6_ok p n gw r b' C Fb'). reflexivity.
Qed.

(** blanks at the end do not matter *)
Lemma skip_end l b : Forall is_blank b -> skip (l ++ b) = match skip l with [] => [] | r => r ++ b end.
Proof.
  intros F. destruct (skip_split l) as (a & Fa & E & N). rewrite E at 1. rewrite <- app_assoc, skip_app by exact Fa.
  destruct (skip l) as [|c r]; [now apply skip_blanks|]. cbn [app]. now apply skip_id.
Qed.
Definition ends (b x y : list Z) : Prop := y = x ++ b \/ (x = [] /\ y = []).
Lemma ends_skip b x y : Forall is_blank b -> ends b x y -> ends b (skip x) (skip y).
Proof.
  intros F [->|[-> ->]]; [|right; now split]. rewrite skip_end by exact F. destruct (skip x); [right; now split|now left].
Qed.
Lemma ends_span f b x y : (forall c, f c = true -> ~ is_blank c) -> Forall is_blank b -> ends b x y -> exists y', span f y = (fst (span f x), y') /\ ends b (snd (span f x)) y'.
Proof.
  intros Nb F [->|[-> ->]]; [|exists []; split; [reflexivity|right; now split]]. destruct (span f x) as [u v] eqn:E. destruct (span_split _ _ _ _ E) as (-> & Fu & Nv).
  exists (v ++ b). cbn [fst snd]. split; [|now left]. rewrite <- app_assoc. apply span_app; [exact Fu|]. destruct v as [|c v]; [|exact Nv]. cbn [app].
  destruct b as [|c b]; [trivial|]. destruct (f c) eqn:Fc; [|reflexivity]. exfalso. inversion F; subst. now apply (Nb c).
Qed.
Lemma ends_sep s b x y : Forall is_blank b -> ends b x y -> match sep s x, sep s y with Some r, Some r' => ends b r r' | None, None => True | _, _ => False end.
Proof.
  intros F E. pose proof (ends_skip b x y F E) as S. unfold sep. destruct S as [S|[S1 S2]]; [|now rewrite S1, S2].
  rewrite S. destruct (skip x) as [|c r] eqn:Ex.
  - cbn [app]. assert (H : b = []).
    { cbn [app] in S. destruct b as [|c b]; [reflexivity|]. destruct (skip_split y) as (? & _ & _ & N). rewrite S in N. exfalso. apply N. now inversion F. }
    subst b. trivial.
  - cbn [app]. destruct (c =? s); [|trivial]. apply ends_skip; [exact F|]. now left.
Qed.
Lemma ends_blank b x y : Forall is_blank b -> ends b x y -> blank y = blank x.
Proof.
  intros F [->|[-> ->]]; [|reflexivity]. unfold blank. rewrite skip_end by exact F. destruct (skip x); reflexivity.
Qed.
Lemma ends_12 b x y : Forall is_blank b -> ends b x y -> group12 y = group12 x.
Proof.
  intros F E. unfold group12. pose proof (ends_sep 44 b x y F E) as S. destruct (sep 44 x) as [r|], (sep 44 y) as [r'|]; try contradiction.
  - destruct (ends_span ipc b r r' ipc_nb F S) as (q & E1 & E2). rewrite E1. destruct (span ipc r) as [u v]. cbn [fst snd] in *. now rewrite (ends_blank b v q F E2).
  - now rewrite (ends_blank b x y F E).
Qed.
Lemma ends_8 b x y : Forall is_blank b -> ends b x y -> group8 y = group8 x.
Proof.
  intros F E. unfold group8. pose proof (ends_sep 44 b x y F E) as S. destruct (sep 44 x) as [r|], (sep 44 y) as [r'|]; try contradiction.
  - destruct (ends_span ipc b r r' ipc_nb F S) as (q & E1 & E2). rewrite E1. destruct (span ipc r) as [u v]. cbn [fst snd] in *.
    destruct u as [|c u]; [now rewrite (ends_12 b r r' F S)|]. destruct E2 as [->|[-> ->]]; [|reflexivity].
    destruct v as [|d v]; cbn [app].
    + destruct b as [|c1 b]; [reflexivity|]. destruct (Z.eqb_spec c1 47) as [->|]; [|reflexivity]. exfalso. inversion F as [|? ? B]. unfold is_blank in B. lia.
    + destruct (d =? 47); [|reflexivity]. destruct (ends_span digitc b v (v ++ b) digit_nb F (or_introl eq_refl)) as (q & E3 & E4). rewrite E3.
      destruct (span digitc v) as [ln t]. cbn [fst snd] in *. destruct ln; [reflexivity|]. now rewrite (ends_12 b t q F E4).
  - now rewrite (ends_blank b x y F E).
Qed.
Lemma ends_6 b x y : Forall is_blank b -> ends b x y -> group6 y = group6 x.
Proof.
  intros F E. unfold group6. pose proof (ends_sep 44 b x y F E) as S. destruct (sep 44 x) as [r|], (sep 44 y) as [r'|]; try contradiction.
  - destruct (ends_span digitc b r r' digit_nb F S) as (q & E1 & E2). rewrite E1. destruct (span digitc r) as [u v]. cbn [fst snd] in *. now rewrite (ends_8 b v q F E2).
  - now rewrite (ends_blank b x y F E).
Qed.
Lemma ifnc_nb c : ifnc c = true -> ~ is_blank c. Proof. rewrite ifnc_ok. tauto. Qed.
Lemma groups_end l b : Forall is_blank b -> egress_groups (l ++ b) = egress_groups l.
Proof.
  intros F. unfold egress_groups. pose proof (ends_skip b l (l ++ b) F (or_introl eq_refl)) as S.
  destruct (ends_span ifnc b _ _ ifnc_nb F S) as (q1 & A1 & B1). rewrite A1. destruct (span ifnc (skip l)) as [name t1]. cbn [fst snd] in *. destruct name as [|c0 name]; [reflexivity|].
  pose proof (ends_sep 61 b _ _ F B1) as S1. destruct (sep 61 t1) as [u1|], (sep 61 q1) as [w1|]; try contradiction; [|reflexivity].
  destruct (ends_span digitc b _ _ digit_nb F S1) as (q2 & A2 & B2). rewrite A2. destruct (span digitc u1) as [rn t2]. cbn [fst snd] in *.
  pose proof (ends_sep 44 b _ _ F B2) as S2. destruct (sep 44 t2) as [u2|], (sep 44 q2) as [w2|]; try contradiction; [|reflexivity].
  destruct (ends_span digitc b _ _ digit_nb F S2) as (q3 & A3 & B3). rewrite A3. destruct (span digitc u2) as [rg t3]. cbn [fst snd] in *.
  pose proof (ends_sep 44 b _ _ F B3) as S3. destruct (sep 44 t3) as [u3|], (sep 44 q3) as [w3|]; try contradiction; [|reflexivity].
  destruct (ends_span digitc b _ _ digit_nb F S3) as (q4 & A4 & B4). rewrite A4. destruct (span digitc u3) as [up t4]. cbn [fst snd] in *.
  pose proof (ends_sep 44 b _ _ F B4) as S4. destruct (sep 44 t4) as [u4|], (sep 44 q4) as [w4|]; try contradiction; [|reflexivity].
  destruct (ends_span digitc b _ _ digit_nb F S4) as (q5 & A5 & B5). rewrite A5. destruct (span digitc u4) as [down t5]. cbn [fst snd] in *.
  now rewrite (ends_6 b _ _ F B5).
Qed.
Lemma strip_split l : exists b, Forall is_blank b /\ l = stripEols l ++ b.
Proof.
  unfold stripEols. enough (H : forall m, exists b, Forall is_blank b /\ m = b ++ drop_eols m).
  { destruct (H (rev l)) as (b & F & E). exists (rev b). split; [now apply Forall_rev|]. rewrite <- rev_app_distr, <- E. symmetry. apply rev_involutive. }
  induction m as [|c m IH]; cbn [drop_eols]; [exists []; split; [constructor|reflexivity]|].
  destruct ((c =? 10) || (c =? 13)) eqn:E; [|exists []; split; [constructor|reflexivity]]. destruct IH as (b & F & Em). exists (c :: b).
  split; [constructor; [unfold is_blank; lia|exact F]|]. cbn [app]. f_equal. exact Em.
Qed.
Lemma groups_strip l : egress_groups (stripEols l) = egress_groups l.
Proof. destruct (strip_split l) as (b & F & E). rewrite E at 2. symmetry. now apply groups_end. Qed.

(** ** The regular expressions *)
Lemma star_cls f s : lang (Star (Cls f)) s <-> Forall (fun c => f c = true) s.
Proof.
  split.
  - remember (Star (Cls f)) as r eqn:Er. induction 1; try discriminate; [constructor|]. inversion Er; subst. apply Forall_app. split; [|auto].
    inversion H; subst. repeat constructor. assumption.
  - induction 1; [constructor|]. apply (L_star _ [x] l); [now constructor|assumption].
Qed.
Lemma plus_cls f s : lang (Plus (Cls f)) s <-> s <> [] /\ Forall (fun c => f c = true) s.
Proof.
  split.
  - intros H. destruct (cat_inv _ _ _ H) as (u & v & -> & Hu & Hv). apply star_cls in Hv. inversion Hu; subst. cbn [app]. split; [discriminate|]. now constructor.
  - intros [N F]. destruct s as [|c s]; [congruence|]. inversion F; subst. apply (L_cat _ _ [c] s); [now constructor|now apply star_cls].
Qed.
Lemma chr_lang c s : lang (Chr c) s <-> s = [c].
Proof. split; [intros H; inversion H; subst; f_equal; symmetry; now apply Z.eqb_eq|intros ->; constructor; apply Z.eqb_refl]. Qed.
Lemma opt_lang a s : lang (Opt a) s <-> s = [] \/ lang a s.
Proof. split; [intros H; inversion H; subst; [left|now right]; match goal with X : lang Eps _ |- _ => now inversion X end|intros [->|H]; [apply L_altl; constructor|now apply L_altr]]. Qed.
Lemma cat_lang a b s : lang (Cat a b) s <-> exists u v, s = u ++ v /\ lang a u /\ lang b v.
Proof. split; [apply cat_inv|intros (u & v & -> & A & B); now constructor]. Qed.
Lemma spaces_lang s : lang (Star (Cls spacec)) s <-> Forall is_blank s.
Proof. rewrite star_cls. apply (Forall_cls spacec is_blank s spacec_ok). Qed.
Lemma digits_lang s : lang (Star (Cls digitc)) s <-> Forall is_digit s.
Proof. rewrite star_cls. apply digits_of. Qed.
Lemma sep_lang c s : lang (rx_sep c) s <-> separator c s.
Proof.
  unfold rx_sep, separator. rewrite cat_lang. split.
  - intros (a & t & -> & A & T). apply cat_inv in T. destruct T as (x & b & -> & X & B). apply chr_lang in X. subst x. apply spaces_lang in A, B. exists a, b. now repeat split.
  - intros (a & b & A & B & ->). exists a, (c :: b). split; [reflexivity|]. split; [now apply spaces_lang|]. apply (L_cat _ _ [c] b); [now apply chr_lang|now apply spaces_lang].
Qed.
Lemma regex_line l : matches rx_egress l = true <-> exists g, egress_line l g.
Proof.
  rewrite matches_ok. unfold rx_egress. split.
  - intros H. destruct (cat_inv _ _ _ H) as (b & t0 & -> & B & H0). destruct (cat_inv _ _ _ H0) as (nm & t1 & -> & N & H1). destruct (cat_inv _ _ _ H1) as (s1 & t2 & -> & S1 & H2).
    destruct (cat_inv _ _ _ H2) as (rn & t3 & -> & RN & H3). destruct (cat_inv _ _ _ H3) as (s2 & t4 & -> & S2 & H4). destruct (cat_inv _ _ _ H4) as (rg & t5 & -> & RG & H5).
    destruct (cat_inv _ _ _ H5) as (s3 & t6 & -> & S3 & H6). destruct (cat_inv _ _ _ H6) as (up & t7 & -> & UP & H7). destruct (cat_inv _ _ _ H7) as (s4 & t8 & -> & S4 & H8).
    destruct (cat_inv _ _ _ H8) as (dn & t9 & -> & DN & H9). destruct (cat_inv _ _ _ H9) as (r & b' & -> & R & B').
    clear H H0 H1 H2 H3 H4 H5 H6 H7 H8 H9.
    assert (C : exists p n g, cost_part p n g r).
    { apply opt_lang in R. destruct R as [->|R]; [exists None, None, None; constructor|].
      destruct (cat_inv _ _ _ R) as (s5 & r1 & -> & S5 & R1). destruct (cat_inv _ _ _ R1) as (pc & r2 & -> & PC & R2). apply sep_lang in S5. apply digits_lang in PC.
      assert (Nt : exists n g, net_part n g r2).
      { apply opt_lang in R2. destruct R2 as [->|R2]; [exists None, None; constructor|].
        destruct (cat_inv _ _ _ R2) as (s6 & r3 & -> & S6 & R3). destruct (cat_inv _ _ _ R3) as (nt & r4 & -> & NT & R4). apply sep_lang in S6.
        assert (G : exists g, gw_part g r4).
        { apply opt_lang in R4. destruct R4 as [->|R4]; [exists None; constructor|]. destruct (cat_inv _ _ _ R4) as (s7 & gw & -> & S7 & GW). apply sep_lang in S7.
          exists (Some gw). constructor; [exact S7|]. apply star_cls in GW. now apply (Forall_cls ipc is_ipchar _ ipc_ok). }
        destruct G as [g G]. apply opt_lang in NT. destruct NT as [->|NT]; [exists (Some None), g; now constructor|].
        destruct (cat_inv _ _ _ NT) as (ip & x & -> & IP & X). destruct (cat_inv _ _ _ X) as (sl & ln & -> & SL & LN). apply chr_lang in SL. subst sl.
        apply plus_cls in IP, LN. destruct IP as [I1 I2], LN as [L1 L2]. exists (Some (Some (ip, ln))), g. rewrite <- !app_assoc. cbn [app].
        constructor; try assumption; [now apply (Forall_cls ipc is_ipchar _ ipc_ok)|now apply digits_of]. }
      destruct Nt as (n & g & Nt). exists (Some pc), n, g. now constructor. }
    destruct C as (p & n & g & C). apply plus_cls in N. destruct N as [N1 N2].
    exists (mkG nm rn rg up dn p n g). exists b, s1, s2, s3, s4, r, b'. cbn [g_name g_rn g_rg g_up g_down g_cost g_net g_gw].
    split; [reflexivity|]. split; [now apply spaces_lang|]. split; [now apply spaces_lang|]. split; [exact N1|].
    split; [now apply (Forall_cls ifnc (fun c => ~ is_blank c /\ c <> 61) _ ifnc_ok)|]. split; [now apply sep_lang|]. split; [now apply sep_lang|]. split; [now apply sep_lang|]. split; [now apply sep_lang|].
    split; [now apply digits_lang|]. split; [now apply digits_lang|]. split; [now apply digits_lang|]. split; [now apply digits_lang|]. exact C.
  - intros (g & b & x1 & x2 & x3 & x4 & r & b' & -> & Fb & Fb' & Nn & Fn & X1 & X2 & X3 & X4 & D1 & D2 & D3 & D4 & C).
    apply L_cat; [now apply spaces_lang|]. apply L_cat; [apply plus_cls; split; [exact Nn|now apply (Forall_cls ifnc (fun c => ~ is_blank c /\ c <> 61) _ ifnc_ok)]|].
    apply L_cat; [now apply sep_lang|]. apply L_cat; [now apply digits_lang|]. apply L_cat; [now apply sep_lang|]. apply L_cat; [now apply digits_lang|].
    apply L_cat; [now apply sep_lang|]. apply L_cat; [now apply digits_lang|]. apply L_cat; [now apply sep_lang|]. apply L_cat; [now apply digits_lang|].
    apply L_cat; [|now apply spaces_lang].
    assert (GG : forall g r, gw_part g r -> lang (Opt (Cat (rx_sep 44) (Star (Cls ipc)))) r).
    { intros g0 r0 G. apply opt_lang. destruct G as [|s gw S F]; [now left|right]. apply L_cat; [now apply sep_lang|]. apply star_cls. now apply (Forall_cls ipc is_ipchar _ ipc_ok). }
    assert (NN : forall n g r, net_part n g r -> lang (Opt (Cat (rx_sep 44) (Cat (Opt (Cat (Plus (Cls ipc)) (Cat (Chr 47) (Plus (Cls digitc))))) (Opt (Cat (rx_sep 44) (Star (Cls ipc))))))) r).
    { intros n0 g0 r0 N. apply opt_lang. destruct N as [|s g1 r1 S G|s ip ln g1 r1 S Ni Fi Nl Fl G]; [now left|right|right].
      - apply L_cat; [now apply sep_lang|]. apply (L_cat _ _ [] r1); [apply opt_lang; now left|now apply (GG g1)].
      - apply L_cat; [now apply sep_lang|]. replace (ip ++ 47 :: ln ++ r1) with ((ip ++ [47] ++ ln) ++ r1) by (rewrite <- !app_assoc; reflexivity).
        apply L_cat; [|now apply (GG g1)]. apply opt_lang. right. apply L_cat; [apply plus_cls; split; [exact Ni|now apply (Forall_cls ipc is_ipchar _ ipc_ok)]|].
        apply L_cat; [now apply chr_lang|]. apply plus_cls. split; [exact Nl|now apply digits_of]. }
    apply opt_lang. destruct C as [|s pc n g0 r S Fp N]; [now left|right]. apply L_cat; [now apply sep_lang|]. apply L_cat; [now apply digits_lang|]. now apply (NN n g0).
Qed.
Lemma groups_regex l : (exists g, egress_groups l = Some g) <-> matches rx_egress l = true.
Proof. rewrite regex_line. split; intros (g & H); exists g; [now apply egress_groups_inv|now apply egress_groups_ok]. Qed.
Lemma comment_ok l : Forall (fun c => c <> 0) l -> (matches rx_comment l = true <-> Forall is_blank l \/ exists c r, l = c :: r /\ (is_blank c \/ c = 35)).
Proof.
  intros Nz. rewrite matches_ok. unfold rx_comment. split.
  - intros H. inversion H; subst.
    + left. now apply spaces_lang.
    + right. match goal with X : lang (Cat (Plus _) _) _ |- _ => destruct (cat_inv _ _ _ X) as (u & v & -> & U & _) end. apply plus_cls in U. destruct U as [Nu Fu]. destruct u as [|c u]; [congruence|].
      cbn [app]. exists c, (u ++ v). split; [reflexivity|]. inversion Fu as [|? ? Hc]; subst. unfold spacec in Hc. unfold is_blank. lia.
  - intros [F|(c & r & -> & Hc)]; [apply L_altl; now apply spaces_lang|]. apply L_altr. change (c :: r) with ([c] ++ r). apply L_cat.
    + apply plus_cls. split; [discriminate|]. repeat constructor. unfold spacec. unfold is_blank in Hc. lia.
    + apply star_cls. inversion Nz; subst. eapply Forall_impl; [|eassumption]. cbn. intros a Ha. unfold anyc. lia.
Qed.
