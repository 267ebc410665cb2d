(** Model of the cache of the information plugins: lib/info/olsrd_info.c
    send_info_from_table and cache_timeout_generic, with the output functions of
    lib/jsoninfo.  The buffer of a cache entry is its text; out of memory is not modelled. *)
From Verif Require Import Base Json.

(** lib/info/info_types.h:81-108 the sections of the normal format *)
Definition SIW_NEIGHBORS := 1.
(** see above, lib/info/info_types.h:81-108 *)
Definition SIW_LINKS := 2.
(** see above, lib/info/info_types.h:81-108 *)
Definition SIW_ROUTES := 4.
(** see above, lib/info/info_types.h:81-108 *)
Definition SIW_HNA := 8.
(** see above, lib/info/info_types.h:81-108 *)
Definition SIW_MID := 16.
(** see above, lib/info/info_types.h:81-108 *)
Definition SIW_TOPOLOGY := 32.
(** see above, lib/info/info_types.h:81-108 *)
Definition SIW_GATEWAYS := 64.
(** see above, lib/info/info_types.h:81-108 *)
Definition SIW_INTERFACES := 128.
(** see above, lib/info/info_types.h:81-108 *)
Definition SIW_2HOP := 256.
(** see above, lib/info/info_types.h:81-108 *)
Definition SIW_SGW := 512.
(** see above, lib/info/info_types.h:81-108 *)
Definition SIW_PUD_POSITION := 1024.
(** see above, lib/info/info_types.h:81-108 *)
Definition SIW_VERSION := 2048.
(** see above, lib/info/info_types.h:81-108 *)
Definition SIW_CONFIG := 4096.
(** see above, lib/info/info_types.h:81-108 *)
Definition SIW_PLUGINS := 8192.
(** see above, lib/info/info_types.h:81-108 *)
Definition SIW_RUNTIME_ALL := 2047.
(** see above, lib/info/info_types.h:81-108 *)
Definition SIW_STARTUP_ALL := 14336.
(** see above, lib/info/info_types.h:81-108 *)
Definition SIW_ALL := 16383.
(** lib/info/olsrd_info.c:506-522 the table *)
Definition table : list Z :=
  [SIW_NEIGHBORS; SIW_LINKS; SIW_ROUTES; SIW_HNA; SIW_MID; SIW_TOPOLOGY; SIW_GATEWAYS; SIW_INTERFACES; SIW_2HOP; SIW_SGW; SIW_PUD_POSITION;
   SIW_VERSION; SIW_CONFIG; SIW_PLUGINS].

(** lib/info/olsrd_info.c:188 *)
Definition LONG_MAX := 2 ^ 63 - 1.
(** lib/info/olsrd_info.c:159-194 cache_timeout_generic, for the sections above *)
Definition cache_timeout (timeout siw : Z) : Z :=
  if timeout <=? 0 then timeout
  else if existsb (Z.eqb siw) [SIW_NEIGHBORS; SIW_LINKS; SIW_ROUTES; SIW_HNA; SIW_MID; SIW_TOPOLOGY; SIW_GATEWAYS; SIW_INTERFACES; SIW_2HOP; SIW_SGW; SIW_PUD_POSITION] then timeout
  else if existsb (Z.eqb siw) [SIW_VERSION; SIW_CONFIG; SIW_PLUGINS] then LONG_MAX
  else 0.

(** a request: what is asked for, what output_start prints
    (lib/jsoninfo/src/olsrd_jsoninfo.c:224-233), olsr_times() when a section is
    considered, and the calls that the printer of a section would make at that moment
    ([None]: the plugin has no such function) *)
Record ireq := mkQ { q_what : Z; q_start : list jcall; q_now : Z -> Z; q_print : Z -> option (list jcall) }.
(** lib/info/info_types.h:185-188 struct info_cache_entry_t: timestamp and text *)
Definition icache := Z -> Z * list Z.
(** lib/info/olsrd_info.c:196-214 info_plugin_cache_init(true) *)
Definition cache_empty : icache := fun _ => (0, []).

(** lib/info/olsrd_info.c:437-473 the loop of send_info_from_table *)
Fixpoint send_sections (timeout : Z) (q : ireq) (c : icache) (s : jsess) (what : Z) (tbl : list Z) : option (icache * jsess * list Z) :=
  match tbl with
  | [] => Some (c, s, [])
  | siw :: tbl' =>
      if what =? 0 then Some (c, s, [])
      else
        let r :=
          if Z.land what siw =? 0 then Some (c, s, [])
          else match q_print q siw with
               | None => Some (c, s, [])
               | Some f =>
                   let tmo := cache_timeout timeout siw in
                   if tmo <=? 0
                   then match jcalls s f with Some (s', t) => Some (c, s', t) | None => None end
                   else let '(ts, buf) := c siw in
                        let now := q_now q siw in
                        if (ts =? 0) || (tmo <=? Z.abs (now - ts))
                        then match jcalls s f with
                             | Some (s', t) => Some (fun k => if k =? siw then (now, t) else c k, s', t)
                             | None => None end
                        else Some (c, s, buf)
               end in
        match r with
        | Some (c1, s1, t1) =>
            match send_sections timeout q c1 s1 (Z.land what (Z.lnot siw)) tbl' with
            | Some (c2, s2, t2) => Some (c2, s2, t1 ++ t2)
            | None => None end
        | None => None end
  end.

(** lib/info/olsrd_info.c:425-480 send_info_from_table with output_start and output_end of
    lib/jsoninfo/src/olsrd_jsoninfo.c:217-240: the text and the length of the sections *)
Definition send_info_from_table (pretty : bool) (timeout : Z) (q : ireq) (c : icache) : option (icache * list Z * Z) :=
  match mark_output (j_reset pretty) true with
  | Some (s1, t1) =>
      match jcalls s1 (q_start q) with
      | Some (s2, t2) =>
          match send_sections timeout q c s2 (q_what q) table with
          | Some (c', s3, t3) =>
              match mark_output s3 false with
              | Some (_, t4) => Some (c', t1 ++ t2 ++ t3 ++ t4 ++ [10], Z.of_nat (length t3))
              | None => None end
          | None => None end
      | None => None end
  | None => None end.

(** requests one after another (lib/info/olsrd_info.c:482-524 send_info): the replies *)
Fixpoint serve (pretty : bool) (timeout : Z) (c : icache) (l : list ireq) : option (list (list Z)) :=
  match l with
  | [] => Some []
  | q :: l' => match send_info_from_table pretty timeout q c with
               | Some (c', t, _) => match serve pretty timeout c' l' with Some r => Some (t :: r) | None => None end
               | None => None end
  end.
