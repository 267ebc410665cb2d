(** Shared arithmetic helpers for the models of olsrd.

    C integer types are modelled as [Z]; where the C code relies on (or may
    run into) the wrap-around of an unsigned type the wrap is written
    explicitly with one of the functions below. *)
From Coq Require Export ZArith List Bool Lia.
From Coq Require Export ZifyBool ZifyNat ZifyN.
Export ListNotations.
Global Open Scope Z_scope.
Ltac Zify.zify_post_hook ::= Z.div_mod_to_equations.

(** uint8_t, uint16_t, uint32_t conversion of a mathematical integer
    (C11 6.3.1.3p2; types from src/olsr_types.h:50-60 and stdint.h). *)
Definition u8 (x : Z) : Z := x mod 256.
(** see above, src/olsr_types.h:50-60 *)
Definition u16 (x : Z) : Z := x mod 65536.
(** see above, src/olsr_types.h:50-60 *)
Definition u32 (x : Z) : Z := x mod 4294967296.

Lemma Some_inj : forall {A} (x y : A), Some x = Some y -> x = y.
Proof. intros A x y H. injection H. auto. Qed.
