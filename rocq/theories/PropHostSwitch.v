(** C146: what olsr_switch does with the packets between its clients. *)
From Verif Require Import Base Parser ParserProofs HostSwitch HostSwitchSpec HostSwitchProofs.

(** The command link sets the quality of exactly the links it names - both
    directions with bi, all clients for a wildcard, never from a client to itself -
    and 100 removes the entry.  A command with an unknown client or a quality
    outside 0 to 100 changes nothing. *)
Theorem C146_link l bi src dst q : let cs := orun l in
  let cs' := orun (l ++ [OLink bi src dst q]) in
  (forall a, connected cs' a <-> connected cs a) /\
  (((exists a, (src = Some a \/ dst = Some a) /\ ~ connected cs a) \/ ~ 0 <= q <= 100) -> cs' = cs) /\
  ((forall a, src = Some a \/ dst = Some a -> connected cs a) -> 0 <= q <= 100 ->
    forall s d p, quality cs' s d p <-> (selected cs bi src dst s d /\ q <> 100 /\ p = q) \/ (~ selected cs bi src dst s d /\ quality cs s d p)).
Proof.
  intros cs cs'. pose proof (orun_ok l) as C. fold cs in C.
  assert (E : cs' = match cmd_link bi src dst q cs with Some c => c | None => cs end).
  { unfold cs', orun. rewrite fold_left_app. reflexivity. }
  clearbody cs cs'. destruct (cmd_link bi src dst q cs) as [c|] eqn:K; subst cs'.
  - destruct (cmd_link_spec bi src dst q cs c C K) as (_ & A & R & Q). split; [intros a; rewrite !connected_map, A; tauto|]. split; [|intros _ _; exact Q].
    intros [(a & H & N)|H]; [|contradiction]. exfalso. unfold cmd_link in K.
    destruct (word cs src) as [ss|] eqn:W1; [|discriminate]. destruct (word cs dst) as [ds|] eqn:W2; [|discriminate].
    assert (X1 := proj2 (word_some cs src) (ex_intro _ _ W1)). assert (X2 := proj2 (word_some cs dst) (ex_intro _ _ W2)).
    destruct H as [->| ->]; [destruct X1 as [X|(b & X & Y)]|destruct X2 as [X|(b & X & Y)]]; try discriminate; apply Some_inj in X; subst b; contradiction.
  - split; [tauto|]. split; [reflexivity|]. intros H R. exfalso. unfold cmd_link in K.
    destruct (proj1 (word_some cs src)) as (ss & W1). { destruct src as [a|]; [right; exists a; split; [reflexivity|apply H; now left]|now left]. }
    destruct (proj1 (word_some cs dst)) as (ds & W2). { destruct dst as [a|]; [right; exists a; split; [reflexivity|apply H; now right]|now left]. }
    rewrite W1, W2 in K. replace ((q <? 0) || (q >? 100)) with false in K by lia. discriminate.
Qed.
Print Assumptions C146_link.
(** three clients; both directions between the first and all others get 50 *)
Definition c146_three : list oev := [OConnect [10;0;0;1] 5; OConnect [10;0;0;2] 6; OConnect [10;0;0;3] 7].
Example C146_link_ex : let cs := orun c146_three in let cs' := orun (c146_three ++ [OLink true (Some [10;0;0;1]) None 50]) in
  (forall a, Some [10;0;0;1] = Some a \/ @None (list Z) = Some a -> connected cs a) /\ selected cs true (Some [10;0;0;1]) None [10;0;0;3] [10;0;0;1] /\
  quality cs' [10;0;0;1] [10;0;0;2] 50 /\ quality cs' [10;0;0;3] [10;0;0;1] 50 /\ untouched cs' [10;0;0;3] [10;0;0;2].
Proof.
  assert (C1 : connected (orun c146_three) [10;0;0;1]) by (apply connected_map; vm_compute; tauto).
  assert (C3 : connected (orun c146_three) [10;0;0;3]) by (apply connected_map; vm_compute; tauto).
  split; [|split; [|split; [|split]]].
  - intros a [H|H]; [|discriminate]. apply Some_inj in H. subst a. exact C1.
  - split; [exact C3|]. split; [exact C1|]. split; [discriminate|]. right. split; [reflexivity|]. split; [now right|now left].
  - exists (mkOc [10;0;0;1] 5 [mkOl [10;0;0;2] 50; mkOl [10;0;0;3] 50]). vm_compute. tauto.
  - exists (mkOc [10;0;0;3] 7 [mkOl [10;0;0;1] 50]). vm_compute. tauto.
  - intros q (c & I & A & K). vm_compute in I. destruct I as [<-|[<-|[<-|[]]]]; try discriminate A. destruct K as [K|[]]. discriminate.
Qed.

(** A packet of a client goes to every other client with no entry, to none whose
    entry says 0, and to one with another entry when its own random number x in
    [0, 2^31) has 100 x >= (q - 1) 2^31; never back to the client itself. *)
Theorem C146_route l c rs : In c (orun l) -> (length (orun l) <= length rs)%nat -> Forall (fun x => 0 <= x < 2 ^ 31) rs ->
  let cs := orun l in let got a := In a (receivers c cs rs) in
  ~ got (oc_addr c) /\ (forall a, got a -> connected cs a) /\
  (forall a, connected cs a -> a <> oc_addr c -> untouched cs (oc_addr c) a -> got a) /\
  (forall a, quality cs (oc_addr c) a 0 -> ~ got a) /\
  exists draw : list Z -> nat,
    (forall a b q r, connected cs a -> connected cs b -> quality cs (oc_addr c) a q -> quality cs (oc_addr c) b r -> q <> 0 -> r <> 0 -> draw a = draw b -> a = b) /\
    forall a q, connected cs a -> a <> oc_addr c -> quality cs (oc_addr c) a q -> q <> 0 ->
      exists x, nth_error rs (draw a) = Some x /\ (got a <-> (q - 1) * 2 ^ 31 <= 100 * x).
Proof.
  intros I Len F cs got. destruct (orun_ok l) as (N & S1 & L). fold cs in N, S1, L, I, Len. unfold got. clearbody cs. clear got.
  destruct (receivers_spec c cs N rs Len F) as (f & FI & FS).
  assert (SUB : forall ds rs a, In a (receivers c ds rs) -> In a (map oc_addr ds)).
  { clear. induction ds as [|y ds IH]; intros rs a; cbn [receivers map]; [tauto|]. destruct (check_link c (oc_addr y) rs) as [ok rs'].
    destruct (ok && negb (oc_sock c =? oc_sock y)); [intros [H|H]; [now left|right; now apply (IH rs')]|intros H; right; now apply (IH rs')]. }
  assert (U : forall d e, In d cs -> In e cs -> oc_addr d = oc_addr e -> d = e).
  { clear - N. induction cs as [|x cs IH]; [intros d e []|]. cbn [map] in N. inversion N as [|? ? N1 N2]; subst. intros d e [->|D] [->|E] H; [reflexivity| | |now apply IH].
    - exfalso. apply N1. rewrite H. now apply in_map.
    - exfalso. apply N1. rewrite <- H. now apply in_map. }
  assert (V : forall d e, In d cs -> In e cs -> oc_sock d = oc_sock e -> d = e).
  { clear - S1. induction cs as [|x cs IH]; [intros d e []|]. cbn [map] in S1. inversion S1 as [|? ? N1 N2]; subst. intros d e [->|D] [->|E] H; [reflexivity| | |now apply IH].
    - exfalso. apply N1. rewrite H. now apply in_map.
    - exfalso. apply N1. rewrite <- H. now apply in_map. }
  assert (QL : forall a q, quality cs (oc_addr c) a q -> get_link (oc_links c) a = Some (mkOl a q)).
  { intros a q (e & E1 & E2 & E3). apply get_link_quality; [now apply L|]. now rewrite <- (U e c E1 I E2). }
  assert (OTH : forall d, In d cs -> oc_addr d <> oc_addr c -> oc_sock c <> oc_sock d) by (intros d D H E; apply H; now rewrite (V c d I D E)).
  split; [now apply (FS c I)|]. split; [intros a H; apply connected_map; now apply (SUB cs rs)|]. split; [|split].
  - intros a (d & D & <-) H T. apply (FS d D); [now apply OTH|]. destruct (get_link (oc_links c) (oc_addr d)) as [k|] eqn:G; [|reflexivity].
    exfalso. apply get_link_some in G as [G1 G2]. apply (T (ol_qual k)). exists c. split; [exact I|]. split; [reflexivity|]. rewrite <- G2. now destruct k.
  - intros a H K. pose proof (SUB _ _ _ K) as M. apply in_map_iff in M as (d & <- & D). destruct (FS d D) as [F1 F2].
    destruct (Z.eq_dec (oc_sock c) (oc_sock d)) as [E|E]; [now apply F1|]. destruct (F2 E) as [_ F3]. destruct (F3 _ (QL _ _ H)) as [F4 _]. now apply F4.
  - exists f. split.
    + intros a b q r A B QA QB NA NB. apply connected_map in A, B. apply QL in QA, QB. apply FI; try assumption; eexists; (split; [eassumption|]); cbn [ol_qual]; assumption.
    + intros a q (d & D & <-) H Q NQ. destruct (FS d D) as [_ F2]. destruct (F2 (OTH d D H)) as [_ F3]. destruct (F3 _ (QL _ _ Q)) as [_ F4]. now apply F4.
Qed.
Print Assumptions C146_route.
Example C146_route_ex : let l := c146_three ++ [OLink false (Some [10;0;0;1]) (Some [10;0;0;2]) 50] in
  let c := mkOc [10;0;0;1] 5 [mkOl [10;0;0;2] 50] in
  In c (orun l) /\ receivers c (orun l) [2 ^ 30; 0; 0] = [[10;0;0;3]; [10;0;0;2]] /\ receivers c (orun l) [2 ^ 30 + 2 ^ 29; 0; 0] = [[10;0;0;3]; [10;0;0;2]] /\
  receivers c (orun l) [2 ^ 29; 0; 0] = [[10;0;0;3]].
Proof. split; [vm_compute; tauto|]. repeat split. Qed.

(** The help text calls the quality the chance in percent of a packet to be
    forwarded.  It is the chance of the packet to be dropped: whatever passes a
    link of some quality passes every link of a smaller one, and of all the random
    numbers only those of the last tenth pass a link of quality 91. *)
Theorem C146_chance_refuted :
  (forall d p q x, 0 < p <= q -> q < 100 -> 0 <= x < 2 ^ 31 -> forall s n,
     receivers (mkOc s n [mkOl d q]) [mkOc d (n + 1) []] [x] = [d] -> receivers (mkOc s n [mkOl d p]) [mkOc d (n + 1) []] [x] = [d]) /\
  (forall d x s n, 0 <= x < 2 ^ 31 -> (receivers (mkOc s n [mkOl d 91]) [mkOc d (n + 1) []] [x] = [d] <-> 90 * 2 ^ 31 <= 100 * x)) /\
  (forall d x s n, 0 <= x < 2 ^ 31 -> receivers (mkOc s n [mkOl d 1]) [mkOc d (n + 1) []] [x] = [d]).
Proof.
  assert (G : forall d q x s n, 0 < q -> 0 <= x < 2 ^ 31 -> (receivers (mkOc s n [mkOl d q]) [mkOc d (n + 1) []] [x] = [d] <-> (q - 1) * 2 ^ 31 <= 100 * x)).
  { intros d q x s n Q X. rewrite <- (throw_ge x q X). cbn [receivers]. unfold check_link, get_link. cbn [find oc_addr oc_links oc_sock ol_dst ol_qual]. rewrite beq_refl. cbn [ol_qual].
    replace (q =? 0) with false by lia. replace (n =? n + 1) with false by lia. destruct (q >? throw x) eqn:T; cbn [negb andb]; split; intros H; try discriminate; try reflexivity; lia. }
  split; [|split].
  - intros d p q x P Q X s n. rewrite !G by lia. lia.
  - intros d x s n X. rewrite G by lia. lia.
  - intros d x s n X. rewrite G by lia. lia.
Qed.
Print Assumptions C146_chance_refuted.
Example C146_chance_ex : receivers (mkOc [10;0;0;1] 5 [mkOl [10;0;0;2] 90]) [mkOc [10;0;0;2] 6 []] [2 ^ 30] = [] /\
  receivers (mkOc [10;0;0;1] 5 [mkOl [10;0;0;2] 10]) [mkOc [10;0;0;2] 6 []] [2 ^ 30] = [[10;0;0;2]].
Proof. split; reflexivity. Qed.

(** When a client leaves and a client with its address connects again, the links
    to it are still manipulated while the links from it are not. *)
Theorem C146_stale_refuted : exists l a b, let cs := orun (l ++ [OLeave b; OConnect b 9]) in
  connected cs a /\ connected cs b /\ quality cs a b 0 /\ untouched cs b a /\ quality (orun l) b a 0.
Proof.
  exists (c146_three ++ [OLink true (Some [10;0;0;1]) (Some [10;0;0;2]) 0]), [10;0;0;1], [10;0;0;2]. cbv zeta. split; [|split; [|split; [|split]]].
  - apply connected_map. vm_compute. tauto.
  - apply connected_map. vm_compute. tauto.
  - exists (mkOc [10;0;0;1] 5 [mkOl [10;0;0;2] 0]). vm_compute. tauto.
  - intros q (c & I & A & K). vm_compute in I. destruct I as [<-|[<-|[<-|[]]]]; try discriminate A. destruct K.
  - exists (mkOc [10;0;0;2] 6 [mkOl [10;0;0;1] 0]). vm_compute. tauto.
Qed.
Print Assumptions C146_stale_refuted.

(** olsr_random takes the absolute value of 32 random bits: it is a number of
    [0, 2^31) for all but one of them, and undefined for that one. *)
Theorem C146_random_partial v : - 2 ^ 31 < v < 2 ^ 31 -> exists x, olsr_random v = Some x /\ 0 <= x < 2 ^ 31 /\ (x = v \/ x = - v).
Proof. intros H. unfold olsr_random. replace (v =? - 2 ^ 31) with false by lia. exists (Z.abs v). split; [reflexivity|]. lia. Qed.
Print Assumptions C146_random_partial.
Example C146_random_ex : olsr_random (-5) = Some 5. Proof. reflexivity. Qed.
Theorem C146_random_refuted : exists v, - 2 ^ 31 <= v < 2 ^ 31 /\ olsr_random v = None.
Proof. exists (- 2 ^ 31). split; [lia|reflexivity]. Qed.
Print Assumptions C146_random_refuted.
