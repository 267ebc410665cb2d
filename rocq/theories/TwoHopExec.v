(** Executable runs of the two-hop neighbor table, for the examples: the MID set as a list of pairs
    (alias, main address). *)
From Verif Require Import Base SchedTime TwoHop TwoHopSpec MidProofs.

Definition env_of (own : list Z) (mid : list (Z * Z)) (lq : bool) (vt r : Z) (best : option Z) : henv :=
  mkV (fun a => existsb (Z.eqb a) own)
      (fun a => option_map snd (find (fun p => fst p =? a) mid))
      (fun m => map fst (filter (fun p => snd p =? m) mid)) lq vt r best.
Inductive dev :=
| DHello (n : Z) (own : list Z) (mid : list (Z * Z)) (lq : bool) (vt r : Z) (best : option Z) (msg : list hnb)
| DOther (e : tev).
Definition ev_of (d : dev) : tev :=
  match d with DHello n own mid lq vt r best msg => THello n (env_of own mid lq vt r best) msg | DOther e => e end.
Definition plain_mid (mid : list (Z * Z)) : bool :=
  forallb (fun p => match find (fun q => fst q =? fst p) mid with Some q => snd q =? snd p | None => false end &&
                    match find (fun q => fst q =? snd p) mid with Some _ => false | None => true end) mid.
Lemma plain_no_chain : forall own mid lq vt r best, plain_mid mid = true -> no_chain (env_of own mid lq vt r best).
Proof.
  intros own mid lq vt r best H. unfold plain_mid in H. rewrite forallb_forall in H. split; cbn [env_of v_ali v_main].
  - intros m a A. apply in_map_iff in A. destruct A as (p & <- & A). apply filter_In in A. destruct A as [A1 A2]. specialize (H p A1).
    destruct (find (fun q => fst q =? fst p) mid) as [q|]; [|discriminate]. cbn. f_equal. destruct (find _ mid); [rewrite andb_false_r in H; discriminate|]. rewrite andb_true_r in H. lia.
  - intros a m A. destruct (find (fun p => fst p =? a) mid) as [p|] eqn:F; [|discriminate]. cbn in A. apply Some_inj in A. subst m. apply find_some in F. destruct F as [F _].
    specialize (H p F). destruct (find (fun q => fst q =? snd p) mid); [rewrite andb_false_r in H; discriminate|reflexivity].
Qed.
Definition tolb (s : tstate) (d : dev) : bool :=
  (Z.of_nat (length (nbs s)) <=? 32767) &&
  match d with
  | DHello _ _ mid _ _ _ _ _ => plain_mid mid
  | DOther (THello _ _ _) => false
  | DOther (TMid main alias known others) =>
      negb (existsb (Z.eqb main) (alias :: others)) && forallb (fun a => negb (existsb (Z.eqb a) (map b_addr (nbs s)))) others &&
      (Z.of_nat (length (filter (fun b => b_addr b =? alias) (nbs s))) <=? 1)
  | _ => true
  end.
Lemma tolb_ok : forall s d, tolb s d = true -> tolerable s (ev_of d).
Proof.
  intros s d H. apply andb_prop in H. destruct H as [H1 H2]. split; [lia|]. destruct d as [n own mid lq vt r best msg|e]; cbn [ev_of].
  - now apply plain_no_chain.
  - destruct e as [| | | |n v msg| |main alias known others]; try exact Logic.I; try discriminate. apply andb_prop in H2. destruct H2 as [H2 H3]. apply andb_prop in H2. destruct H2 as [H2 H4].
    split; [|split].
    + intro Q. apply existsb_in in Q. rewrite Q in H2. discriminate.
    + intros a A Q. rewrite forallb_forall in H4. specialize (H4 a A). apply existsb_in in Q. rewrite Q in H4. discriminate.
    + intros x y Ix Iy Ex Ey. assert (In x (filter (fun b => b_addr b =? alias) (nbs s)) /\ In y (filter (fun b => b_addr b =? alias) (nbs s))) as [Fx Fy]
        by (split; apply filter_In; split; auto; lia). destruct (filter _ _) as [|z [|? ?]]; [easy| |cbn [length] in H3; lia]. cbn in Fx, Fy. destruct Fx as [<-|[]]. destruct Fy as [<-|[]]. reflexivity.
Qed.

(** plain runs *)
Fixpoint nexec (rmax : Z) (hsh : Z -> Z) (strict : bool) (s : tstate) (l : list (Z * dev)) : option tstate :=
  match l with
  | [] => Some s
  | (now, d) :: r =>
      if (0 <=? now) && (now <? 4294967296) && (negb strict || tolb s d) && tpossible now s (ev_of d)
      then match tstep rmax hsh now s (ev_of d) with Some s' => nexec rmax hsh strict s' r | None => None end
      else None
  end.
Lemma nexec_run : forall rmax hsh (strict : bool) l s s', nrun rmax hsh (if strict then tolerable else any) s -> nexec rmax hsh strict s l = Some s' ->
  nrun rmax hsh (if strict then tolerable else any) s'.
Proof.
  intros rmax hsh strict l. induction l as [|[now d] r IH]; intros s s' R E; cbn [nexec] in E; [apply Some_inj in E; now subst|].
  destruct ((0 <=? now) && (now <? 4294967296) && (negb strict || tolb s d) && tpossible now s (ev_of d)) eqn:C; [|discriminate].
  destruct (tstep rmax hsh now s (ev_of d)) as [s1|] eqn:ST; [|discriminate].
  apply andb_prop in C. destruct C as [C C2]. apply andb_prop in C. destruct C as [C C3]. apply andb_prop in C. destruct C as [C4 C5].
  apply (IH s1); [|exact E]. eapply nrun1; [exact R|split; [|]; shelve| |exact C2|exact ST].
  destruct strict; [apply tolb_ok; exact C3|exact Logic.I].
  Unshelve. all: lia.
Qed.

(** timed runs *)
Definition promptb (slack t : Z) (s : tstate) : bool :=
  forallb (fun l => match l_timer l with Some x => negb (isTimedOut (u32 t) x) || (u32 (u32 t - x) <=? slack) | None => true end) (n2ls s).
Lemma promptb_ok : forall slack t s, promptb slack t s = true -> nprompt slack t s.
Proof.
  intros slack t s H. unfold promptb in H. rewrite forallb_forall in H. apply Forall_forall. intros l I. specialize (H l I). destruct (l_timer l); [|exact Logic.I].
  intro Q. rewrite Q in H. cbn in H. lia.
Qed.
Definition evb (rmax : Z) (d : dev) : bool :=
  match d with DHello _ _ _ _ vt r _ _ => (1 <=? vt) && (vt <? 536870912) && (0 <=? r) && (r <=? rmax) | DOther (THello _ _ _) => false | _ => true end.
Lemma evb_ok : forall rmax d, evb rmax d = true -> event_ok rmax (ev_of d).
Proof. intros rmax d H. destruct d as [n own mid lq vt r best msg|[]]; cbn in *; try exact Logic.I; [lia|discriminate]. Qed.
Fixpoint ntexec (rmax : Z) (hsh : Z -> Z) (slack : Z) (h : list (Z * tstate * tev)) (t0 : Z) (s : tstate) (l : list (Z * dev)) : option (list (Z * tstate * tev) * Z * tstate) :=
  match l with
  | [] => Some (h, t0, s)
  | (t, d) :: r =>
      if (t0 <=? t) && (t <? t0 + 536870912) && evb rmax d && tolb s d && promptb slack t s && tpossible (u32 t) s (ev_of d)
      then match tstep rmax hsh (u32 t) s (ev_of d) with Some s' => ntexec rmax hsh slack (h ++ [(t, s, ev_of d)]) t s' r | None => None end
      else None
  end.
Lemma ntexec_run : forall rmax hsh slack l h t0 s h' t' s', ntrun rmax hsh slack h t0 s -> ntexec rmax hsh slack h t0 s l = Some (h', t', s') -> ntrun rmax hsh slack h' t' s'.
Proof.
  intros rmax hsh slack l. induction l as [|[t d] r IH]; intros h t0 s h' t' s' R E; cbn [ntexec] in E; [inversion E; now subst|].
  destruct ((t0 <=? t) && (t <? t0 + 536870912) && evb rmax d && tolb s d && promptb slack t s && tpossible (u32 t) s (ev_of d)) eqn:C; [|discriminate].
  destruct (tstep rmax hsh (u32 t) s (ev_of d)) as [s1|] eqn:ST; [|discriminate].
  repeat (apply andb_prop in C; destruct C as [C ?]).
  apply (IH (h ++ [(t, s, ev_of d)]) t s1); [|exact E].
  eapply ntrun1; [exact R|lia|now apply evb_ok|now apply tolb_ok|now apply promptb_ok|assumption|exact ST].
Qed.
