(** C170, C171: the reader and the printer of NMEA sentences *)
From Coq Require Import String.
From Verif Require Import Base Regex Nmea NmeaSpec NmeaProofs.

(** A reader with any size of buffer gives, for any stream, exactly the sentences in it that
    are complete, have the right parity if they have one, and fit; nothing outside of the buffer
    is touched *)
Theorem C170_read : forall sz s l, 0 <= sz ->
  (exists p, parse (init sz) s = Some (p, l)) <-> sentences (if sz =? 0 then 4096 else sz) s l.
Proof.
  intros sz s l N. destruct (parse_all (if sz =? 0 then 4096 else sz) ltac:(destruct (sz =? 0) eqn:E; lia) s (init sz) (init_inv sz)) as (p & m & E & _ & Ss).
  split.
  - intros (q & E'). rewrite E in E'. assert (m = l) by congruence. subst l. exact Ss.
  - intros S'. rewrite (sentences_unique _ _ _ S' _ Ss). eauto.
Qed.
Print Assumptions C170_read.
Theorem C170_inside : forall sz s, 0 <= sz -> parse (init sz) s <> None.
Proof. intros sz s N. destruct (parse_all (if sz =? 0 then 4096 else sz) ltac:(destruct (sz =? 0) eqn:E; lia) s (init sz) (init_inv sz)) as (p & m & E & _). rewrite E. discriminate. Qed.
Print Assumptions C170_inside.
(** a broken sentence, one with a parity, one with a wrong one, and one without *)
Definition eol : list Z := [13; 10].
Example C170_read_ex : exists p, parse (init 20) (str "$GP$GPA,1*4b" ++ eol ++ str "$GPA,1*4C" ++ eol ++ str "x$GPB,2" ++ eol ++ str "$GPABCDEFGHIJKLMNOPQ" ++ eol) =
  Some (p, [str "$GPA,1*4b"; str "$GPB,2"]).
Proof. eexists. vm_compute. reflexivity. Qed.

(** A stream can be given in any pieces *)
Theorem C170_pieces : forall p s t q l r m, parse p s = Some (q, l) -> parse q t = Some (r, m) -> parse p (s ++ t) = Some (r, l ++ m).
Proof. intros p s t q l r m E F. rewrite parse_app, E, F. reflexivity. Qed.
Print Assumptions C170_pieces.
Example C170_pieces_ex : exists q r, parse (init 0) (str "$GPA,1*4") = Some (q, []) /\ parse q (str "B" ++ eol) = Some (r, [str "$GPA,1*4B"]).
Proof. eexists _, _. split; vm_compute; reflexivity. Qed.

(** What the printer writes into a buffer that is large enough: the text, its parity, and a NUL;
    nothing behind it changes.  Missing: smaller buffers, see below *)
Theorem C171_printed_partial : forall mem body, Forall plain body -> (List.length body + 7 <= List.length mem)%nat ->
  exists h l, sentence (36 :: body ++ [42; h; l]) /\
    nmea_printf mem (36 :: body) = Some ((36 :: body ++ [42; h; l]) ++ [13; 10; 0] ++ skipn (List.length body + 7) mem, Z.of_nat (List.length body) + 6).
Proof.
  intros mem body F L. exists (hexdigit (parity body / 16)), (hexdigit (parity body mod 16)). pose proof (parity_small _ F) as B. split.
  - apply (s_sum body _ _ (parity body / 16) (parity body mod 16)); auto; try (apply hexdigit_ok; lia). lia.
  - rewrite printf_ok by assumption. f_equal. f_equal. cbn [app]. f_equal. rewrite <- !app_assoc. reflexivity.
Qed.
Print Assumptions C171_printed_partial.
Example C171_printed_ex : nmea_printf (repeat 88 20) (str "$GPA,1") = Some (str "$GPA,1*4B" ++ [13; 10; 0] ++ repeat 88 8, 11).
Proof. vm_compute. reflexivity. Qed.
Theorem C170_roundtrip : forall sz bs, 1 <= sz -> Forall (fun b => sentence b /\ Z.of_nat (List.length b) + 2 < sz) bs ->
  exists p, parse (init sz) (flat_map (fun b => b ++ [13; 10]) bs) = Some (p, bs).
Proof.
  intros sz bs N F.
  assert (G : forall p, p_size p = sz -> exists q, parse p (flat_map (fun b => b ++ [13; 10]) bs) = Some (q, bs)).
  { induction F as [|b bs (Se & L) _ IH]; intros p Sz; [exists p; reflexivity|]. cbn [flat_map]. rewrite parse_app.
    destruct (run_line sz p b N Sz Se L) as (q & -> & Sq). destruct (IH q Sq) as (r & ->). exists r. reflexivity. }
  apply G. unfold init. cbn [p_size]. replace (sz =? 0) with false by lia. reflexivity.
Qed.
Print Assumptions C170_roundtrip.
Example C170_roundtrip_ex : exists p, parse (init 12) (str "$GPA,1*4B" ++ eol ++ str "$GPB,2" ++ eol) = Some (p, [str "$GPA,1*4B"; str "$GPB,2"]).
Proof. eexists. vm_compute. reflexivity. Qed.

(** In a buffer that is too small the printer takes the parity of what is behind the buffer, for
    every text that is longer *)
Theorem C171_small_refuted : exists mem body, Forall plain body /\ nmea_printf mem (36 :: body) = None.
Proof. exists (repeat 0 4), (str "GPA,1"). split; [|vm_compute; reflexivity]. repeat (apply Forall_cons; [unfold plain; cbn; lia|]). apply Forall_nil. Qed.
Print Assumptions C171_small_refuted.
Theorem C171_small_always : forall mem body, (List.length mem <= List.length body)%nat -> nmea_printf mem (36 :: body) = None.
Proof.
  intros mem body L. unfold nmea_printf, append_ck, calc_crc. cbn [List.length Nat.eqb].
  assert (Q : List.length (snprint mem 0 (List.length mem) (36 :: body)) = List.length mem).
  { unfold snprint. destruct (List.length mem) as [|k] eqn:E; [exact E|]. cbn [Nat.eqb firstn app Nat.add].
    repeat (rewrite ?app_length, ?skipn_length, ?firstn_length; cbn [List.length]). rewrite E. lia. }
  rewrite Q. replace (List.length mem <? S (List.length body))%nat with true by (symmetry; apply Nat.ltb_lt; lia). reflexivity.
Qed.
Print Assumptions C171_small_always.
Example C171_small_ex : (List.length (repeat 0 4) <= List.length (str "GPA,1"))%nat.
Proof. cbn. lia. Qed.
