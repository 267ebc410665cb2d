(** A JSON text denotes one value only. *)
From Coq Require Import String.
From Verif Require Import Base Regex Json JsonSpec.

Lemma esc_fun e c c' : In (e, c) escapes -> In (e, c') escapes -> c = c'.
Proof. unfold escapes. cbn [In]. intros A B. repeat (destruct A as [A|A]; [inversion A; subst; repeat (destruct B as [B|B]; [inversion B; subst; lia|]); elim B|]). elim A. Qed.
Lemma chars_det t s : chars t s -> forall t' s' r r', chars t' s' -> t ++ [34] ++ r = t' ++ [34] ++ r' -> t = t' /\ s = s' /\ r = r'.
Proof.
  induction 1 as [|c t s P C IH|e c t s I C IH]; intros t' s' r r' C' E; destruct C' as [|c' t' s' P' C'|e' c' t' s' I' C']; cbn [app] in E; inversion E; subst; try (unfold plain in *; lia).
  - auto.
  - destruct (IH t' s' r r' C' H1) as (-> & -> & ->). auto.
  - destruct (IH t' s' r r' C' H1) as (-> & -> & ->). rewrite (esc_fun _ _ _ I I'). auto.
Qed.

Definition nows (r : list Z) : Prop := match r with [] => True | c :: _ => c <> 32 /\ c <> 9 /\ c <> 10 /\ c <> 13 end.
Lemma ws_det w : ws w -> forall w' r r', w ++ r = w' ++ r' -> ws w' -> nows r -> nows r' -> w = w' /\ r = r'.
Proof.
  induction w as [|c w IH]; intros W w' r r' E W' N N'; destruct w' as [|c' w']; cbn [app] in E.
  - auto.
  - subst r. inversion W'; subst. cbn in N. lia.
  - subst r'. inversion W; subst. cbn in N'. lia.
  - inversion E; subst. destruct (IH ltac:(now inversion W) w' r r' ltac:(assumption) ltac:(now inversion W') N N') as (-> & ->). auto.
Qed.

Definition nodigit (r : list Z) : Prop := match r with [] => True | c :: _ => ~ digit c end.
Definition stop (r : list Z) : Prop := match r with [] => True | c :: _ => ~ digit c /\ c <> 46 end.
Lemma digits_det d : Forall digit d -> forall d' r r', Forall digit d' -> nodigit r -> nodigit r' -> d ++ r = d' ++ r' -> d = d' /\ r = r'.
Proof.
  induction d as [|c d IH]; intros W d' r r' W' N N' E; destruct d' as [|c' d']; cbn [app] in E.
  - auto.
  - subst r. inversion W'; subst. now elim N.
  - subst r'. inversion W; subst. now elim N'.
  - inversion E; subst. destruct (IH ltac:(now inversion W) d' r r' ltac:(now inversion W') N N' ltac:(assumption)) as (-> & ->). auto.
Qed.
Lemma number_det t m k t' m' k' r r' : number t m k -> number t' m' k' -> stop r -> stop r' -> t ++ r = t' ++ r' -> t = t' /\ m = m' /\ k = k' /\ r = r'.
Proof.
  intros (n & ip & fp & F1 & F2 & Ne & _ & -> & -> & ->) (n' & ip' & fp' & F1' & F2' & Ne' & _ & -> & -> & ->) S0 S1 E.
  assert (X : n = n' /\ ip ++ (match fp with [] => [] | _ => 46 :: fp end) ++ r = ip' ++ (match fp' with [] => [] | _ => 46 :: fp' end) ++ r').
  { destruct ip as [|a ip]; [now elim Ne|]. destruct ip' as [|a' ip']; [now elim Ne'|]. inversion F1; inversion F1'; subst. unfold digit in *.
    rewrite <- !app_assoc in E. destruct n, n'; cbn [app] in E; inversion E; subst; try lia; split; try reflexivity; cbn [app]; congruence. }
  destruct X as (-> & X).
  assert (Nd : forall f q, stop q -> nodigit ((match f with [] => [] | _ => 46 :: f end) ++ q)).
  { intros f q Q. destruct f; cbn [app nodigit]; [|unfold digit; lia]. destruct q; [exact I|]. apply Q. }
  destruct (digits_det ip F1 ip' _ _ F1' (Nd _ _ S0) (Nd _ _ S1) X) as (-> & Y).
  assert (Z1 : fp = fp' /\ r = r').
  { destruct fp as [|a fp], fp' as [|a' fp'].
    - rewrite !app_nil_l in Y. auto.
    - rewrite app_nil_l in Y. subst r. cbn in S0. lia.
    - rewrite app_nil_l in Y. subst r'. cbn in S1. lia.
    - assert (U : (a :: fp) ++ r = (a' :: fp') ++ r') by (apply (f_equal (@tl Z)) in Y; exact Y).
      apply (digits_det _ F2 (a' :: fp')); try assumption; [destruct r; [exact I|]; apply S0|destruct r'; [exact I|]; apply S1]. }
  destruct Z1 as (-> & ->). auto.
Qed.

(** the first character of a value *)
Definition headof (v : jval) (c : Z) : Prop :=
  match v with
  | JBool b => c = (if b then 116 else 102) | JStr _ => c = 34 | JNum _ _ => c = 45 \/ digit c | JArr _ => c = 91 | JObj _ => c = 123
  end.
Lemma value_head t v : value t v -> exists c t0, t = c :: t0 /\ headof v c.
Proof.
  intros V. destruct V as [| |t s C|t m k N|w W|t l L|w W|t l L]; try (eexists _, _; split; [cbv [str map list_ascii_of_string Z.of_N Ascii.N_of_ascii app]; reflexivity|reflexivity]).
  destruct N as (n & ip & fp & F1 & F2 & Ne & _ & -> & _). destruct n. { eexists _, _. split; [reflexivity|]. now left. }
  destruct ip as [|a ip]; [now elim Ne|]. eexists _, _. split; [reflexivity|]. right. now inversion F1.
Qed.
Lemma head_not v c : headof v c -> c <> 32 /\ c <> 9 /\ c <> 10 /\ c <> 13 /\ c <> 93 /\ c <> 125 /\ c <> 44.
Proof. unfold headof, digit. destruct v as [[]| | | |]; lia. Qed.
Lemma stop_ws w r : ws w -> stop r -> stop (w ++ r).
Proof. intros W S0. destruct W as [|c w C W]; [exact S0|]. cbn. unfold digit. lia. Qed.

Scheme value_mut := Induction for value Sort Prop with elements_mut := Induction for elements Sort Prop with members_mut := Induction for members Sort Prop.
Definition Pv t v := forall t' v' r r', value t' v' -> t ++ r = t' ++ r' -> stop r -> stop r' -> t = t' /\ v = v' /\ r = r'.
Definition Pe t l := forall t' l' r r', elements t' l' -> t ++ [93] ++ r = t' ++ [93] ++ r' -> t = t' /\ l = l' /\ r = r'.
Definition Pm t l := forall t' l' r r', members t' l' -> t ++ [125] ++ r = t' ++ [125] ++ r' -> t = t' /\ l = l' /\ r = r'.

Lemma elements_head t l : elements t l -> exists w t1, t = w ++ t1 /\ ws w /\ nows t1 /\ (exists c q, t1 = c :: q /\ c <> 93).
Proof.
  intros L. destruct L as [w1 t w2 v W1 V W2|w1 t w2 v t' l W1 V W2 L]; destruct (value_head t v V) as (c & q & -> & Hh); pose proof (head_not v c Hh);
    eexists w1, _; (split; [reflexivity|]; split; [exact W1|]; split; [cbn; lia|eexists _, _; split; [reflexivity|lia]]).
Qed.
Lemma members_head t l : members t l -> exists w t1, t = w ++ t1 /\ ws w /\ nows t1 /\ (exists c q, t1 = c :: q /\ c <> 125).
Proof.
  intros L. destruct L; (eexists w1, _; split; [reflexivity|]; split; [assumption|]; split; [cbn; lia|eexists _, _; split; [reflexivity|lia]]).
Qed.
Lemma nows_cons c t : c <> 32 /\ c <> 9 /\ c <> 10 /\ c <> 13 -> nows (c :: t).
Proof. auto. Qed.

Lemma value_nows t v r : value t v -> nows (t ++ r).
Proof. intros V. destruct (value_head t v V) as (c & q & -> & Hh). pose proof (head_not v c Hh). cbn. lia. Qed.
Lemma str_true : str "true" = [116; 114; 117; 101].
Proof. reflexivity. Qed.
Lemma str_false : str "false" = [102; 97; 108; 115; 101].
Proof. reflexivity. Qed.

Lemma inv_true t : value t (JBool true) -> t = str "true".
Proof. intros V. now inversion V. Qed.
Lemma inv_false t : value t (JBool false) -> t = str "false".
Proof. intros V. now inversion V. Qed.
Lemma inv_str t s : value t (JStr s) -> exists u, t = [34] ++ u ++ [34] /\ chars u s.
Proof. intros V. inversion V as [| |u ? C| | | | |]. now exists u. Qed.
Lemma inv_num t m k : value t (JNum m k) -> number t m k.
Proof. intros V. now inversion V. Qed.
Lemma inv_arr t l : value t (JArr l) -> exists u, t = [91] ++ u ++ [93] /\ ((l = [] /\ ws u) \/ elements u l).
Proof. intros V. inversion V as [| | | |w W|u ? L| |]; subst; [exists w|exists u]; auto. Qed.
Lemma inv_obj t l : value t (JObj l) -> exists u, t = [123] ++ u ++ [125] /\ ((l = [] /\ ws u) \/ members u l).
Proof. intros V. inversion V as [| | | | | |w W|u ? L]; subst; [exists w|exists u]; auto. Qed.
Ltac nw := cbn [app nows]; repeat split; discriminate.
Ltac sp := cbn [app stop]; unfold digit; split; [lia|discriminate].
Lemma value_unique t0 v0 : value t0 v0 -> Pv t0 v0.
Proof.
  apply (value_mut (fun t v _ => Pv t v) (fun t l _ => Pe t l) (fun t l _ => Pm t l)); unfold Pv, Pe, Pm.
  - intros t' v' r r' V' E S0 S1. destruct (value_head _ _ V') as (c & q & Et & Hh). assert (c = 116) by (rewrite Et, str_true in E; now inversion E). subst c.
    destruct v' as [[]| | | |]; cbn in Hh; unfold digit in Hh; try lia. pose proof (inv_true _ V') as X. rewrite X in *. apply app_inv_head in E. auto.
  - intros t' v' r r' V' E S0 S1. destruct (value_head _ _ V') as (c & q & Et & Hh). assert (c = 102) by (rewrite Et, str_false in E; now inversion E). subst c.
    destruct v' as [[]| | | |]; cbn in Hh; unfold digit in Hh; try lia. pose proof (inv_false _ V') as X. rewrite X in *. apply app_inv_head in E. auto.
  - intros u s C t' v' r r' V' E S0 S1. destruct (value_head _ _ V') as (c & q & Et & Hh). assert (c = 34) by (rewrite Et in E; now inversion E). subst c.
    destruct v' as [[]| | | |]; cbn in Hh; unfold digit in Hh; try lia. destruct (inv_str _ _ V') as (u' & -> & C'). rewrite <- !app_assoc in E. apply app_inv_head in E.
    destruct (chars_det u s C _ _ _ _ C' E) as (-> & -> & ->). auto.
  - intros u m k N t' v' r r' V' E S0 S1. destruct (value_head _ _ (v_num _ _ _ N)) as (c0 & q0 & Eu & Hh0). destruct (value_head _ _ V') as (c & q & Et & Hh).
    assert (c = c0) by (rewrite Et, Eu in E; now inversion E). subst c0.
    destruct v' as [[]| | | |]; cbn in Hh, Hh0; unfold digit in Hh, Hh0; try lia. apply inv_num in V'.
    destruct (number_det _ _ _ _ _ _ r r' N V' S0 S1 E) as (A & -> & -> & ->). auto.
  - intros w W t' v' r r' V' E S0 S1. destruct (value_head _ _ V') as (c & q & Et & Hh). assert (c = 91) by (rewrite Et in E; now inversion E). subst c.
    destruct v' as [[]| | | |]; cbn in Hh; unfold digit in Hh; try lia. destruct (inv_arr _ _ V') as (u' & -> & C'). rewrite <- !app_assoc in E. apply app_inv_head in E.
    destruct C' as [(-> & W')|L'].
    + destruct (ws_det w W u' _ _ E W' ltac:(nw) ltac:(nw)) as (-> & A). apply app_inv_head in A. subst. auto.
    + destruct (elements_head _ _ L') as (w1 & t1 & -> & W1 & N1 & c & q1 & -> & N2). exfalso.
      rewrite <- app_assoc in E. destruct (ws_det w W w1 _ _ E W1 ltac:(nw) N1) as (_ & A). inversion A. lia.
  - intros u l L IH t' v' r r' V' E S0 S1. destruct (value_head _ _ V') as (c & q & Et & Hh). assert (c = 91) by (rewrite Et in E; now inversion E). subst c.
    destruct v' as [[]| | | |]; cbn in Hh; unfold digit in Hh; try lia. destruct (inv_arr _ _ V') as (u' & -> & C'). rewrite <- !app_assoc in E. apply app_inv_head in E.
    destruct C' as [(-> & W')|L'].
    + destruct (elements_head _ _ L) as (w1 & t1 & -> & W1 & N1 & c & q1 & -> & N2). exfalso.
      rewrite <- app_assoc in E. destruct (ws_det w1 W1 u' _ _ E W' N1 ltac:(nw)) as (_ & A). inversion A. lia.
    + destruct (IH _ _ _ _ L' E) as (-> & -> & ->). auto.
  - intros w W t' v' r r' V' E S0 S1. destruct (value_head _ _ V') as (c & q & Et & Hh). assert (c = 123) by (rewrite Et in E; now inversion E). subst c.
    destruct v' as [[]| | | |]; cbn in Hh; unfold digit in Hh; try lia. destruct (inv_obj _ _ V') as (u' & -> & C'). rewrite <- !app_assoc in E. apply app_inv_head in E.
    destruct C' as [(-> & W')|L'].
    + destruct (ws_det w W u' _ _ E W' ltac:(nw) ltac:(nw)) as (-> & A). apply app_inv_head in A. subst. auto.
    + destruct (members_head _ _ L') as (w1 & t1 & -> & W1 & N1 & c & q1 & -> & N2). exfalso.
      rewrite <- app_assoc in E. destruct (ws_det w W w1 _ _ E W1 ltac:(nw) N1) as (_ & A). inversion A. lia.
  - intros u l L IH t' v' r r' V' E S0 S1. destruct (value_head _ _ V') as (c & q & Et & Hh). assert (c = 123) by (rewrite Et in E; now inversion E). subst c.
    destruct v' as [[]| | | |]; cbn in Hh; unfold digit in Hh; try lia. destruct (inv_obj _ _ V') as (u' & -> & C'). rewrite <- !app_assoc in E. apply app_inv_head in E.
    destruct C' as [(-> & W')|L'].
    + destruct (members_head _ _ L) as (w1 & t1 & -> & W1 & N1 & c & q1 & -> & N2). exfalso.
      rewrite <- app_assoc in E. destruct (ws_det w1 W1 u' _ _ E W' N1 ltac:(nw)) as (_ & A). inversion A. lia.
    + destruct (IH _ _ _ _ L' E) as (-> & -> & ->). auto.
  - intros w1 u w2 v W1 V IH W2 t' l' r r' L' E. destruct L' as [w1' u' w2' v' W1' V' W2'|w1' u' w2' v' x l W1' V' W2' L']; rewrite <- !app_assoc in E.
    + destruct (ws_det w1 W1 w1' _ _ E W1' (value_nows _ _ _ V) (value_nows _ _ _ V')) as (-> & E1).
      destruct (IH _ _ _ _ V' E1 ltac:(apply stop_ws; [exact W2|sp]) ltac:(apply stop_ws; [exact W2'|sp])) as (-> & -> & E2).
      destruct (ws_det w2 W2 w2' _ _ E2 W2' ltac:(nw) ltac:(nw)) as (-> & E3). inversion E3. auto.
    + exfalso. destruct (ws_det w1 W1 w1' _ _ E W1' (value_nows _ _ _ V) (value_nows _ _ _ V')) as (-> & E1).
      destruct (IH _ _ _ _ V' E1 ltac:(apply stop_ws; [exact W2|sp]) ltac:(apply stop_ws; [exact W2'|sp])) as (-> & -> & E2).
      destruct (ws_det w2 W2 w2' _ _ E2 W2' ltac:(nw) ltac:(nw)) as (-> & E3). inversion E3.
  - intros w1 u w2 v x l W1 V IH W2 L IHl t' l' r r' L' E. destruct L' as [w1' u' w2' v' W1' V' W2'|w1' u' w2' v' x' l' W1' V' W2' L']; rewrite <- !app_assoc in E.
    + exfalso. destruct (ws_det w1 W1 w1' _ _ E W1' (value_nows _ _ _ V) (value_nows _ _ _ V')) as (-> & E1).
      destruct (IH _ _ _ _ V' E1 ltac:(apply stop_ws; [exact W2|sp]) ltac:(apply stop_ws; [exact W2'|sp])) as (-> & -> & E2).
      destruct (ws_det w2 W2 w2' _ _ E2 W2' ltac:(nw) ltac:(nw)) as (-> & E3). inversion E3.
    + destruct (ws_det w1 W1 w1' _ _ E W1' (value_nows _ _ _ V) (value_nows _ _ _ V')) as (-> & E1).
      destruct (IH _ _ _ _ V' E1 ltac:(apply stop_ws; [exact W2|sp]) ltac:(apply stop_ws; [exact W2'|sp])) as (-> & -> & E2).
      destruct (ws_det w2 W2 w2' _ _ E2 W2' ltac:(nw) ltac:(nw)) as (-> & E3).
      apply app_inv_head in E3. destruct (IHl _ _ _ _ L' E3) as (-> & -> & ->). auto.
  - intros w1 k s w2 w3 u w4 v W1 C W2 W3 V IH W4 t' l' r r' L' E.
    destruct L' as [w1' k' s' w2' w3' u' w4' v' W1' C' W2' W3' V' W4'|w1' k' s' w2' w3' u' w4' v' x l W1' C' W2' W3' V' W4' L']; rewrite <- !app_assoc in E;
    destruct (ws_det w1 W1 w1' _ _ E W1' ltac:(nw) ltac:(nw)) as (-> & E1); apply app_inv_head in E1; destruct (chars_det k s C _ _ _ _ C' E1) as (-> & -> & E2);
    destruct (ws_det w2 W2 w2' _ _ E2 W2' ltac:(nw) ltac:(nw)) as (-> & E3); apply app_inv_head in E3;
    destruct (ws_det w3 W3 w3' _ _ E3 W3' (value_nows _ _ _ V) (value_nows _ _ _ V')) as (-> & E4);
    destruct (IH _ _ _ _ V' E4 ltac:(apply stop_ws; [exact W4|sp]) ltac:(apply stop_ws; [exact W4'|sp])) as (-> & -> & E5);
    destruct (ws_det w4 W4 w4' _ _ E5 W4' ltac:(nw) ltac:(nw)) as (-> & E6); inversion E6; auto.
  - intros w1 k s w2 w3 u w4 v x l W1 C W2 W3 V IH W4 L IHl t' l' r r' L' E.
    destruct L' as [w1' k' s' w2' w3' u' w4' v' W1' C' W2' W3' V' W4'|w1' k' s' w2' w3' u' w4' v' x' l' W1' C' W2' W3' V' W4' L']; rewrite <- !app_assoc in E;
    destruct (ws_det w1 W1 w1' _ _ E W1' ltac:(nw) ltac:(nw)) as (-> & E1); apply app_inv_head in E1; destruct (chars_det k s C _ _ _ _ C' E1) as (-> & -> & E2);
    destruct (ws_det w2 W2 w2' _ _ E2 W2' ltac:(nw) ltac:(nw)) as (-> & E3); apply app_inv_head in E3;
    destruct (ws_det w3 W3 w3' _ _ E3 W3' (value_nows _ _ _ V) (value_nows _ _ _ V')) as (-> & E4);
    destruct (IH _ _ _ _ V' E4 ltac:(apply stop_ws; [exact W4|sp]) ltac:(apply stop_ws; [exact W4'|sp])) as (-> & -> & E5);
    destruct (ws_det w4 W4 w4' _ _ E5 W4' ltac:(nw) ltac:(nw)) as (-> & E6); [inversion E6|].
    apply app_inv_head in E6. destruct (IHl _ _ _ _ L' E6) as (-> & -> & ->). auto.
Qed.

Lemma json_text_unique t v v' : json_text t v -> json_text t v' -> v = v'.
Proof.
  intros (w1 & u & w2 & -> & W1 & V & W2) (w1' & u' & w2' & E & W1' & V' & W2').
  destruct (ws_det w1 W1 w1' _ _ E W1' (value_nows _ _ _ V) (value_nows _ _ _ V')) as (-> & E1).
  destruct (value_unique u v V _ _ _ _ V' E1 ltac:(rewrite <- (app_nil_r w2); now apply stop_ws) ltac:(rewrite <- (app_nil_r w2'); now apply stop_ws)) as (_ & -> & _). reflexivity.
Qed.
