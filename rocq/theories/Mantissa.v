(** Model of src/mantissa.c: the one byte mantissa/exponent coding of
    durations (RFC 3626 section 18.3).  Definitions only. *)
From Verif Require Import Base.

(** src/mantissa.c:79-82: [b = 0; while (unscaled_interval >= (1U << b)) b++].
    [fuel] bounds the number of iterations; running out of fuel would mean a
    shift by 32 or more (undefined in C) and is reported as [None]. *)
Fixpoint me_exp_loop (fuel : nat) (unscaled b : Z) : option Z :=
  match fuel with
  | O => None
  | S f => if unscaled >=? 2 ^ b then me_exp_loop f unscaled (b + 1) else Some b
  end.

(** src/mantissa.c:62-133 reltime_to_me.  [interval] is an [olsr_reltime]
    (uint32_t milliseconds).  [None] = undefined shift. *)
Definition reltime_to_me (interval : Z) : option Z :=
  let unscaled_interval := u32 (interval / 125 * 2) in
  match me_exp_loop 32 unscaled_interval 0 with
  | None => None
  | Some b0 =>
      if b0 =? 0 then Some (Z.lor (Z.shiftl 1 4) 0)
      else
        let b := b0 - 1 in
        if b >? 15 then Some (Z.lor (Z.shiftl 15 4) 15)
        else
          let a0 :=
            if b >=? 5
            then u8 (u32 (interval - Z.shiftl 125 (b - 1)) / Z.shiftl 125 (b - 5))
            else u8 (u32 (u32 (interval - Z.shiftl 125 (b - 1)) * Z.shiftl 1 (5 - b)) / 125) in
          let b' := u8 (b + Z.shiftr a0 4) in
          let a := Z.land a0 15 in
          Some (u8 (Z.lor (Z.shiftl a 4) (Z.land b' 15)))
  end.

(** src/mantissa.c:170-180 me_to_reltime. *)
Definition me_to_reltime (me : Z) : Z :=
  let a := Z.shiftr me 4 in
  let b := Z.land me 15 in
  if b >=? 8
  then u32 (Z.shiftl (16 + a) (b - 8) * 1000)
  else Z.shiftr ((16 + a) * 1000) (8 - b).
