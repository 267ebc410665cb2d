(** Running the link set on concrete event lists, for witnesses and examples. *)
From Verif Require Import Base SchedTime LinkSet LinkSetSpec.

Definition event_okb (c : lcfg) (e : lev) : bool :=
  match e with
  | EHello ifc remote main vt msg r q =>
      (2 <=? vt) && (vt <? 536870912) && (0 <=? r) && (r <=? rmax c) && forallb (fun p => (0 <=? snd p) && (snd p <=? 3)) msg
  | _ => true
  end.
Definition prompt1b (slack t : Z) (d : option Z) : bool :=
  match d with Some x => negb (isTimedOut (u32 t) x) || (u32 (u32 t - x) <=? slack) | None => true end.
Definition promptb (slack t : Z) (s : lstate) : bool :=
  forallb (fun l => prompt1b slack t (l_sym l) && prompt1b slack t (l_timer l)) (links s).

Fixpoint lexec (c : lcfg) (slack : Z) (h : history) (t : Z) (s : lstate) (evs : list (Z * lev)) : option (history * Z * lstate) :=
  match evs with
  | [] => Some (h, t, s)
  | (t', e) :: r =>
      if (t <=? t') && (t' <? t + 536870912) && event_okb c e && promptb slack t' s && possible (u32 t') s e
      then match lstep c (u32 t') s e with Some s' => lexec c slack (h ++ items c t' s e) t' s' r | None => None end
      else None
  end.

Lemma event_okb_ok : forall c e, event_okb c e = true -> event_ok c e.
Proof.
  intros c e H. destruct e; cbn in *; auto. apply andb_true_iff in H. destruct H as [H F].
  repeat apply conj; try lia. rewrite Forall_forall. rewrite forallb_forall in F. intros x I. specialize (F x I). lia.
Qed.
Lemma prompt1b_ok : forall slack t d, prompt1b slack t d = true -> prompt1 slack t d.
Proof. intros slack t [x|] H; cbn in *; [|exact Logic.I]. intro T. rewrite T in H. cbn in H. lia. Qed.
Lemma promptb_ok : forall slack t s, promptb slack t s = true -> prompt slack t s.
Proof.
  intros slack t s H. unfold promptb in H. rewrite forallb_forall in H. apply Forall_forall. intros l I. specialize (H l I).
  apply andb_true_iff in H. destruct H. split; now apply prompt1b_ok.
Qed.
Lemma lexec_run : forall c slack evs h t s h' t' s', lrun c slack h t s -> lexec c slack h t s evs = Some (h', t', s') -> lrun c slack h' t' s'.
Proof.
  intros c slack evs. induction evs as [|[t1 e] r IH]; intros h t s h' t' s' R H; cbn [lexec] in H.
  - inversion H; subst. exact R.
  - destruct ((t <=? t1) && (t1 <? t + 536870912) && event_okb c e && promptb slack t1 s && possible (u32 t1) s e) eqn:Q; [|discriminate].
    repeat (apply andb_true_iff in Q; destruct Q as [Q ?]). destruct (lstep c (u32 t1) s e) as [s1|] eqn:E; [|discriminate].
    apply IH in H; [exact H|]. eapply lrun1; eauto; [lia|now apply event_okb_ok|now apply promptb_ok].
Qed.
(** a state of a run, at a time *)
Lemma lexec_at : forall c slack evs t h t' s' t2, 0 <= t -> lexec c slack [] t linit evs = Some (h, t', s') ->
  (t' <=? t2) && (t2 <? t' + 536870912) && promptb slack t2 s' = true -> at_time c slack h t2 s'.
Proof.
  intros c slack evs t h t' s' t2 Ht E Q. repeat (apply andb_true_iff in Q; destruct Q as [Q ?]). exists t'.
  split; [eapply lexec_run; [apply (lrun0 c slack t Ht)|exact E]|]. split; [lia|now apply promptb_ok].
Qed.
(** the same for plain runs *)
Fixpoint pexec (c : lcfg) (okb : lstate -> lev -> bool) (s : lstate) (evs : list (Z * lev)) : option lstate :=
  match evs with
  | [] => Some s
  | (now, e) :: r =>
      if (0 <=? now) && (now <? 4294967296) && event_okb c e && okb s e && possible now s e
      then match lstep c now s e with Some s' => pexec c okb s' r | None => None end
      else None
  end.
Lemma pexec_run : forall c okb (ok : lstate -> lev -> Prop) evs s s', (forall s e, okb s e = true -> ok s e) -> prun c ok s -> pexec c okb s evs = Some s' -> prun c ok s'.
Proof.
  intros c okb ok evs. induction evs as [|[now e] r IH]; intros s s' K R H; cbn [pexec] in H.
  - apply Some_inj in H. now subst.
  - destruct ((0 <=? now) && (now <? 4294967296) && event_okb c e && okb s e && possible now s e) eqn:Q; [|discriminate].
    repeat (apply andb_true_iff in Q; destruct Q as [Q ?]). destruct (lstep c now s e) as [s1|] eqn:E; [|discriminate].
    apply IH in H; [exact H|exact K|]. eapply prun1; eauto; [lia|now apply event_okb_ok].
Qed.
Definition saneb (own : Z -> Z) (s : lstate) (e : lev) : bool :=
  match e with
  | EHello ifc remote main vt msg r q => main =? own remote
  | EAlias main alias => (main =? own alias) && negb (alias =? main)
  | EMid _ _ => false
  | _ => true
  end.
Lemma saneb_ok : forall own s e, saneb own s e = true -> sane_event own s e.
Proof. intros own s e H. destruct e; cbn in *; auto; try lia; try discriminate. Qed.
Definition quietb (s : lstate) (e : lev) : bool :=
  match e with
  | EHello ifc remote main vt msg r q =>
      (main =? remote) && ((said (i_addr ifc) msg =? 2) || (said (i_addr ifc) msg =? 3)) && existsb (fun i => i_name i =? i_name ifc) (ifs s)
  | ESymFire _ | ECost _ _ => true
  | ELinkFire i => forallb (fun l => negb (l_id l =? i) || match l_sym l with None => true | Some _ => false end) (links s)
  | EIfs l => forallb (fun i => existsb (fun j => i_name j =? i_name i) l) (ifs s)
  | _ => false
  end.
Lemma quietb_ok : forall s e, quietb s e = true -> quiet_event s e.
Proof.
  intros s e H. destruct e; cbn in *; auto; try discriminate.
  - repeat (apply andb_true_iff in H; destruct H as [H ?]). apply existsb_exists in H0. destruct H0 as (i & I & E).
    split; [lia|]. split; [lia|]. exists i. split; [exact I|lia].
  - intros l I E. rewrite forallb_forall in H. specialize (H l I). destruct (l_sym l); [lia|reflexivity].
  - intros x I. rewrite forallb_forall in H. specialize (H x I). apply existsb_exists in H. destruct H as (j & J & E). exists j. split; [exact J|lia].
Qed.
