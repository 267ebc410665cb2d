(** Model of the plugin that takes gateways out of HNA messages
    (lib/filtergw/src/olsrd_filtergw.c).  Definitions only.  The message lies at
    the beginning of a list of bytes; behind it is what follows in the receive
    buffer.  An access outside of the list is [None]. *)
From Verif Require Import Base Bytes IpCalc GwHna Parser Hna.

(** lib/filtergw/src/olsrd_filtergw.c:68, 73-83: is_allowlist and filter_groups;
    there is never more than one group, its [next] is the group itself *)
Record fgw := mkFgw { is_allowlist : Z; filter_groups : option (list (list Z)) }.
(** see above, lib/filtergw/src/olsrd_filtergw.c:68, 73-83 *)
Definition fgw_start : fgw := mkFgw 0 None.

(** a line of the configuration: "originator" with what inet_pton makes of the value, or
    "allowlist"; lib/filtergw/src/olsrd_filtergw.c:120, 246-253 *)
Inductive fparam := POriginator (a : option (list Z)) | PAllow (n : Z).
(** lib/filtergw/src/olsrd_filtergw.c:99-109 add_to_originator_list *)
Definition add_to_originator_list (a : list Z) (l : list (list Z)) : list (list Z) := a :: l.
(** lib/filtergw/src/olsrd_filtergw.c:114-138 set_plugin_filter and 246-253; the
    value that is returned beside the new state: 0 is success *)
Definition set_param (s : fgw) (p : fparam) : fgw * Z :=
  match p with
  | POriginator None => (s, 1)
  | POriginator (Some a) =>
      let l := match filter_groups s with None => [] | Some l => l end in
      (mkFgw (is_allowlist s) (Some (add_to_originator_list a l)), 0)
  | PAllow n => (mkFgw n (filter_groups s), 0)
  end.
(** see above, lib/filtergw/src/olsrd_filtergw.c:114-138 *)
Fixpoint set_params (s : fgw) (l : list fparam) : fgw :=
  match l with [] => s | p :: r => set_params (fst (set_param s p)) r end.

(** lib/filtergw/src/olsrd_filtergw.c:290-307 should_filter *)
Definition should_filter (s : fgw) (orig : list Z) : bool :=
  match filter_groups s with
  | None => negb (is_allowlist s =? 0)
  | Some l =>
      let found := existsb (fun x => bytes_eqb x orig) l in
      if negb (is_allowlist s =? 0) then negb found else found
  end.

(** memmove(b + d, b + f, n); lib/filtergw/src/olsrd_filtergw.c:228 *)
Definition move (b : list Z) (d f n : Z) : option (list Z) :=
  bind (rdn b f n) (fun x =>
  if (0 <=? d) && (d + n <=? blen b) then
    Some (firstn (Z.to_nat d) b ++ x ++ skipn (Z.to_nat (d + n)) b) else None).
(** pkt_put_u16, src/lq_packet.h:241-246 *)
Definition put_u16 (b : list Z) (i v : Z) : option (list Z) :=
  if (0 <=? i) && (i + 2 <=? blen b) then
    Some (firstn (Z.to_nat i) b ++ [u16 v / 256; u16 v mod 256] ++ skipn (Z.to_nat (i + 2)) b) else None.

(** lib/filtergw/src/olsrd_filtergw.c:216-242: the loop over the entries; [curr],
    [hna], [fin] are curr, curr_hna and curr_end as offsets from m.  [fuel] bounds
    the number of turns. *)
Fixpoint filter_loop (fuel : nat) (v6 : bool) (ipsize : Z) (b : list Z) (curr hna fin hnasize msgsize : Z) : option (list Z * bool) :=
  if curr <? fin then
    match fuel with
    | O => None
    | S fuel =>
      bind (rdn b curr ipsize) (fun net =>
      bind (rdn b (curr + ipsize) ipsize) (fun mask =>
      let curr := curr + 2 * ipsize in
      if is_prefix_inetgw v6 (net, netmask_to_prefix mask) then
        let hnasize := hnasize - 2 * ipsize in
        if 0 <? hnasize then
          bind (move b hna curr (fin - curr)) (fun b1 =>
          let msgsize := u16 (msgsize - 2 * ipsize) in
          bind (put_u16 b1 2 msgsize) (fun b2 =>
          filter_loop fuel v6 ipsize b2 hna hna (fin - 2 * ipsize) hnasize msgsize))
        else Some (b, false)
      else filter_loop fuel v6 ipsize b curr (hna + 2 * ipsize) fin hnasize msgsize))
    end
  else Some (b, true).

(** lib/filtergw/src/olsrd_filtergw.c:151-244 olsrd_filtergw_parser: what is in
    the buffer afterwards and the value returned.  hnasize is converted to the
    unsigned type of ipsize before the remainder is taken (2*ipsize divides 2^64). *)
Definition filtergw_parser (s : fgw) (v6 : bool) (b : list Z) : option (list Z * bool) :=
  let ipsize := if v6 then 16 else 4 in
  bind (rd8 b 0) (fun ty =>
  if negb (ty =? HNA_MESSAGE) then Some (b, false) else
  bind (rd8 b 1) (fun _ =>
  bind (rd16 b 2) (fun msgsize =>
  bind (rdn b 4 ipsize) (fun orig =>
  if negb (should_filter s orig) then Some (b, true) else
  let hnasize := msgsize - 8 - ipsize in
  if negb (hnasize mod (2 * ipsize) =? 0) then Some (b, false) else
  filter_loop (Z.to_nat msgsize) v6 ipsize b (8 + ipsize) (8 + ipsize) msgsize hnasize msgsize)))).

(** src/parser.c:391-405 with the two functions registered for HNA messages: the
    plugin is registered after olsr_input_hna (src/main.c:612-704, src/process_package.c:464 and
    src/parser.c:133-135) and therefore called first.  The result: what is in
    the buffer, the HNA set, its effects, whether the message is forwarded. *)
Definition hna_arrives (hash : list Z -> nat) (f : fgw) (c : hcfg) (sym : bool) (b : list Z) (s : hset) :
  option (list Z * hset * list heff * bool) :=
  bind (filtergw_parser f (h_v6 c) b) (fun r =>
  bind (input_hna hash c sym (fst r) s) (fun q =>
  Some (fst r, fst (fst q), snd (fst q), snd r && snd q))).

(** lib/filtergw/src/olsrd_filtergw.c:266-279 olsrd_plugin_fini: the group lies
    in memory that is [live] until it is freed; reading it afterwards is [None].
    [n] bounds the number of turns of the outer loop. *)
Fixpoint fini (n : nat) (live : bool) (groups : option (list (list Z))) : option unit :=
  match groups with
  | None => Some tt
  | Some l =>
      match n with
      | O => None
      | S n => if live then fini n false (Some []) else None
      end
  end.
