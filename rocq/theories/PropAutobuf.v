(** C27: text buffers (src/common/autobuf.c). *)
From Verif Require Import Base Autobuf AutobufSpec AutobufProofs.

(** C27: after every history of calls (content below the 16 MB limit) the
    buffer holds exactly the text the successful calls put there. *)
Theorem C27_content_partial : forall b c f, ahist b c f -> content b = c /\ usable b.
Proof. intros b c f H. destruct (hist_inv b c f H) as (U & C & _). exact (conj C U). Qed.
Print Assumptions C27_content_partial.

(** C27: no legal call touches memory outside the buffer, and a call only
    fails if the allocator does. *)
Theorem C27_no_overrun_partial : forall b c f o ok, ahist b c f -> arg_ok (Z.of_nat (length c)) o ->
  Z.of_nat (length c) + added o <= ABUF_LIMIT -> (0 < asize b \/ ok = true) ->
  exists b' r, astep b o ok = Some (b', r) /\ (ok = true -> r = true) /\ (0 < asize b -> 0 < asize b').
Proof. exact hist_progress. Qed.
Print Assumptions C27_no_overrun_partial.

(** C27: as long as nothing was pulled and no call failed, the text is
    terminated. *)
Theorem C27_terminated_partial : forall b c, ahist b c true -> (0 < asize b \/ c <> []) -> terminated b.
Proof. exact hist_terminated. Qed.
Print Assumptions C27_terminated_partial.

Example C27_ex : exists b, ahist b [48; 49; 50; 51] true /\ 0 < asize b.
Proof.
  assert (ahist (abuf_init 0 true) [] true) as H0 by (apply ahist_init; unfold ABUF_LIMIT; lia).
  destruct (hist_progress _ _ _ (AAppendf [50; 51]) true H0 I) as (b1 & r & S1 & R & _);
    [unfold ABUF_LIMIT; cbn; lia|auto|].
  rewrite (R eq_refl) in S1.
  assert (ahist b1 [50; 51] true) as H1.
  { apply (ahist_step _ _ _ (AAppendf [50; 51]) true b1 true H0 I); [unfold ABUF_LIMIT; cbn; lia|auto|exact S1]. }
  assert (0 < asize b1) as A1.
  { vm_compute in S1. inversion S1. reflexivity. }
  destruct (hist_progress _ _ _ (APrefix [48; 49]) true H1 I) as (b2 & r2 & S2 & R2 & A2);
    [unfold ABUF_LIMIT; cbn; lia|auto|].
  rewrite (R2 eq_refl) in S2. exists b2. split; [|auto].
  apply (ahist_step _ _ _ (APrefix [48; 49]) true b2 true H1 I); [unfold ABUF_LIMIT; cbn; lia|auto|exact S2].
Qed.

(** C27 is false beyond the limit: appending more than 2^24 bytes "rounds up"
    to 2^24 and writes past the end of the block. *)
Theorem C27_large_append_refuted : exists p, Z.of_nat (length p) = 2 ^ 24 + 1 /\
  astep (abuf_init 0 true) (AMemcpy p) true = None.
Proof. exact big_overrun. Qed.
Print Assumptions C27_large_append_refuted.

(** C27 is false after pulling text off the front: the rest is not
    terminated. *)
Theorem C27_pull_terminated_refuted : exists b c, ahist b c false /\ 0 < asize b /\ ~ terminated b.
Proof. exact pull_unterminated. Qed.
Print Assumptions C27_pull_terminated_refuted.

(** C27 is false if the very first allocation fails in a formatted append:
    the error path writes through the null pointer. *)
Theorem C27_failed_first_append_refuted : exists s, astep (abuf_init 0 true) (AAppendf s) false = None.
Proof. exact (ex_intro _ [65] null_append). Qed.
Print Assumptions C27_failed_first_append_refuted.
