(** Model of the one-byte bandwidth code and of the gateway costs
    (src/gateway.c:204-262, src/gateway_costs.c).  Definitions only. *)
From Verif Require Import Base.

(** src/olsr_cfg.h:175 MAX_SMARTGW_SPEED (also src/gateway_costs.c:57) *)
Definition MAX_SPEED : Z := 320000000.

(** src/gateway.c:227-229 *)
Fixpoint times10 (k : nat) (speed : Z) : Z :=
  match k with O => speed | S k' => times10 k' (u32 (speed * 10)) end.

(** src/gateway.c:211-231 deserialize_gw_speed *)
Definition deserialize_gw_speed (value : Z) : Z :=
  if value =? 0 then 0
  else if value =? 255 then MAX_SPEED
  else times10 (Z.to_nat (Z.land value 7)) (Z.shiftr value 3 + 1).

(** src/gateway.c:257-260; [k] is 7 - exp *)
Fixpoint shrink (k : nat) (speed exp : Z) : Z * Z :=
  match k with
  | O => (speed, exp)
  | S k' => if (speed >? 32) || (speed mod 10 =? 0) then shrink k' (speed / 10) (exp + 1) else (speed, exp)
  end.

(** src/gateway.c:242-262 serialize_gw_speed *)
Definition serialize_gw_speed (speed : Z) : Z :=
  if speed =? 0 then 0
  else let speed := if speed =? 1 then speed + 1 else speed in
       if speed >=? MAX_SPEED then 255
       else let (s, e) := shrink 7 speed 0 in u8 (Z.lor (Z.shiftl (s - 1) 3) e).

(** src/olsr_cfg.h:344-348 *)
Record gwcfg := mkGc { gc_up : Z; gc_down : Z; gc_etx : Z; gc_div : Z; gc_max : Z }.
(** see above, src/olsr_cfg.h:344-348 *)
Definition INT64_MAX : Z := 9223372036854775807.

(** src/gateway_costs.c:59-91 gw_costs_weigh.  The products are computed in int
    (1000 * uint8_t) and in uint32_t (path_cost * uint8_t) before the conversion
    to int64_t. *)
Definition gw_costs_weigh (c : gwcfg) (up : bool) (path_cost exitUk exitDk : Z) : Z :=
  if negb up then INT64_MAX
  else if gc_div c =? 0 then Z.shiftl path_cost 31
  else if (exitUk =? 0) || (exitDk =? 0) then INT64_MAX
  else if (exitUk >=? MAX_SPEED) && (exitDk >=? MAX_SPEED) && (path_cost <? gc_max c) then path_cost
  else Z.shiftl (1000 * gc_up c) 23 / exitUk + Z.shiftl (1000 * gc_down c) 23 / exitDk
       + Z.shiftl (u32 (path_cost * gc_etx c)) 23 / gc_div c.
