(** Link quality estimation and link cost: the packet counting plugins
    [etx_ff] and [etx_ffeth], and the exponentially aging plugin [etx_fpm].

    Simplifications.  [long] (the type [fpm], src/fpm.h:54) is taken wide
    enough not to overflow: every intermediate value below is less than 2^43,
    so a 64 bit [long] never overflows.  The macros of src/fpm.h:66-86 are
    used as in a build with NDEBUG (Makefile.inc:335); all operands are non
    negative, so C's truncating division is [/].  Links are named by an
    identifier instead of by address; the parser functions' lookup
    (src/lq_plugin_default_ff.c:180-187) is the choice of the identifier.
    Logging is left out.  The aging factor of [etx_fpm] is taken after its
    conversion to an integer
    ([aging_factor_new], src/lq_plugin_default_fpm.c:104). *)
From Verif Require Import Base.

(** LINK_COST_BROKEN, src/lq_plugin.h:56 *)
Definition LC_BROKEN : Z := 2 ^ 22.

(** (unsigned int)(255 * MINIMAL_USEFUL_LQ), src/lq_plugin.h:60,
    src/lq_plugin_default_ff.c:289 *)
Definition LQ_USEFUL : Z := 25.

(** LQ_FF_WINDOW and LQ_FFETH_WINDOW, src/lq_plugin_default_ff.h:57,
    src/lq_plugin_default_ffeth.h:54 *)
Definition LQ_WINDOW : Z := 32.

(** Which packet counting plugin is active: [lq_etx_ff_handler]
    (src/lq_plugin_default_ff.c:82) or [lq_etx_ffeth_handler]
    (src/lq_plugin_default_ffeth.c:84). *)
Inductive lqk := FF | FFETH.

(** struct default_lq_ff_hello without the two quality pairs,
    src/lq_plugin_default_ff.h:65-72, src/lq_plugin_default_ffeth.h:62-70;
    [e_lq] is lq.valueLq. *)
Record est := Est {
  e_lq : Z;              (* lq.valueLq, uint8_t *)
  e_win : Z;             (* windowSize, uint8_t *)
  e_ptr : Z;             (* activePtr, uint8_t *)
  e_seq : Z;             (* last_seq_nr, uint16_t *)
  e_miss : Z;            (* missed_hellos, uint16_t *)
  e_perf : bool;         (* perfect_eth, ffeth only *)
  e_recv : list Z;       (* received[32], uint16_t *)
  e_tot : list Z         (* total[32], uint16_t *)
}.

(** A link: struct link_entry, src/link_set.h:62-98, and the published part
    of its quality. *)
Record ffl := Ffl {
  l_id : Z;
  l_ether : bool;        (* inter->mode == IF_MODE_ETHER *)
  l_mult : Z;            (* loss_link_multiplier *)
  l_hint : Z;            (* loss_helloint, ms *)
  l_cost : Z;            (* linkcost *)
  l_nlq : Z;             (* lq.valueNlq *)
  l_slq : Z;             (* smoothed_lq.valueLq *)
  l_snlq : Z;            (* smoothed_lq.valueNlq *)
  l_est : est
}.

(** a[i] = v on an array, C assignment; src/lq_plugin_default_ff.c *)
Fixpoint put (i : nat) (v : Z) (l : list Z) : list Z :=
  match l, i with
  | [], _ => []
  | _ :: r, O => v :: r
  | x :: r, S j => x :: put j v r
  end.

(** default_lq_clear_ff_hello on a zeroed block,
    src/lq_plugin_default_ff.c:395-407, src/lq_plugin.c:492-502
    (olsr_malloc_link_entry), src/lq_plugin_default_ffeth.c:434-446 *)
Definition est0 : est :=
  Est 0 4 0 0 0 false (repeat 0 32) (repeat 3 32).

(** default_lq_parser_ff, src/lq_plugin_default_ff.c:189-214;
    default_lq_parser_ffeth, src/lq_plugin_default_ffeth.c:191-217 *)
Definition est_packet (seq : Z) (e : est) : est :=
  if e_seq e =? seq then e
  else
    let d0 := if e_seq e >? seq then u32 (seq + 65536 - e_seq e)
              else seq - e_seq e in
    let d := if d0 >? 256 then 1 else d0 in
    let i := Z.to_nat (e_ptr e) in
    Est (e_lq e) (e_win e) (e_ptr e) seq 0 (e_perf e)
        (put i (u16 (nth i (e_recv e) 0 + 1)) (e_recv e))
        (put i (u16 (nth i (e_tot e) 0 + d)) (e_tot e)).

(** the sums of src/lq_plugin_default_ff.c:234-237 *)
Definition sumz (l : list Z) : Z := fold_right Z.add 0 l.

(** the quality computation, src/lq_plugin_default_ff.c:239-265,
    src/lq_plugin_default_ffeth.c:241-267 *)
Definition ratio_lq (mult hint miss received total : Z) : Z :=
  if total =? 0 then 0
  else
    let ratio0 := u32 (mult * 1024) / 65536 in
    let received1 :=
      if miss >? 1 then
        let interval := u32 (miss * hint) / 1000 in
        if interval >? LQ_WINDOW then 0
        else u32 (received * (LQ_WINDOW - interval)) / LQ_WINDOW
      else received in
    u8 (ratio0 * received1 / total * 255 / 1024).

(** the "ethernet booster", src/lq_plugin_default_ffeth.c:269-284 *)
Definition boost (ether perf : bool) (q : Z) : bool * Z :=
  if ether then
    let p := if q >? 242 then true else if q >? 229 then false else perf in
    (p, if p then 255 else q)
  else (perf, if q >? 0 then q - 1 else q).

(** one link's part of default_lq_ff_timer,
    src/lq_plugin_default_ff.c:222-271; of default_lq_ffeth_timer,
    src/lq_plugin_default_ffeth.c:224-290 *)
Definition est_tick (k : lqk) (ether : bool) (mult hint : Z) (e : est) : est :=
  let win := if e_win e <? LQ_WINDOW then e_win e + 1 else e_win e in
  let received := sumz (firstn (Z.to_nat win) (e_recv e)) in
  let total := sumz (firstn (Z.to_nat win) (e_tot e)) in
  let q := ratio_lq mult hint (e_miss e) received total in
  let '(p, q') := match k with
                  | FF => (e_perf e, q)
                  | FFETH => boost ether (e_perf e) q
                  end in
  let ptr := (e_ptr e + 1) mod LQ_WINDOW in
  Est q' win ptr (e_seq e) (e_miss e) p
      (put (Z.to_nat ptr) 0 (e_recv e)) (put (Z.to_nat ptr) 0 (e_tot e)).

(** default_lq_calc_cost_ff, src/lq_plugin_default_ff.c:283-300;
    default_lq_calc_cost_ffeth, src/lq_plugin_default_ffeth.c:305-339 *)
Definition calc_cost (k : lqk) (lq nlq : Z) : Z :=
  if (lq <? LQ_USEFUL) || (nlq <? LQ_USEFUL) then LC_BROKEN
  else
    let cost :=
      match k with
      | FF => 255 * 255 * 1024 / (lq * nlq)
      | FFETH =>
          let li := if (lq >? 0) && (lq <? 255) then lq + 1 else lq in
          let ni := if (nlq >? 0) && (nlq <? 255) then nlq + 1 else nlq in
          let c := 255 * 255 * 1024 / (li * ni) in
          if (lq =? 255) && (nlq =? 255) then c / 10 else c
      end in
    if cost >=? LC_BROKEN then LC_BROKEN
    else if cost =? 0 then 1 else cost.

(** qualities treated as perfect: 255 in src/lq_plugin_default_ff.c:123,
    133, 157; at least 254 in src/lq_plugin_default_ffeth.c:125, 135, 159 *)
Definition top (k : lqk) (v : Z) : bool :=
  match k with FF => v =? 255 | FFETH => v >=? 254 end.

(** one of the two comparisons of default_lq_ff_handle_lqchange,
    src/lq_plugin_default_ff.c:122-131 and 132-141;
    src/lq_plugin_default_ffeth.c:124-143 *)
Definition differs (k : lqk) (s v : Z) : bool :=
  if s <? v then top k v || (v - s >? s / 10)
  else if s >? v then s - v >? s / 10
  else false.

(** src/lq_plugin_default_ff.c:119-141 *)
Definition relevant (k : lqk) (l : ffl) : bool :=
  differs k (l_slq l) (e_lq (l_est l)) || differs k (l_snlq l) (l_nlq l).

(** memcpy of lq to smoothed_lq and the new cost,
    src/lq_plugin_default_ff.c:144-145 and 165-166 *)
Definition publish (k : lqk) (l : ffl) : ffl :=
  Ffl (l_id l) (l_ether l) (l_mult l) (l_hint l)
      (calc_cost k (e_lq (l_est l)) (l_nlq l))
      (l_nlq l) (e_lq (l_est l)) (l_nlq l) (l_est l).

(** the second loop's body, src/lq_plugin_default_ff.c:154-167 *)
Definition refresh (k : lqk) (l : ffl) : ffl :=
  if top k (l_slq l) && top k (l_snlq l) then l
  else if (l_slq l =? e_lq (l_est l)) && (l_snlq l =? l_nlq l) then l
  else publish k l.

(** default_lq_ff_handle_lqchange, src/lq_plugin_default_ff.c:110-170;
    default_lq_ffeth_handle_lqchange,
    src/lq_plugin_default_ffeth.c:113-172.  The boolean is "triggered", the
    call of olsr_relevant_linkcost_change (line 169). *)
Definition lqchange (k : lqk) (ls : list ffl) : list ffl * bool :=
  let triggered := existsb (relevant k) ls in
  let ls1 := map (fun l => if relevant k l then publish k l else l) ls in
  (if triggered then map (refresh k) ls1 else ls1, triggered).

(** replacement of the estimate of a link; bookkeeping for the fields the C
    code assigns in place, src/lq_plugin_default_ff.c:189, 223 *)
Definition with_est (l : ffl) (e : est) : ffl :=
  Ffl (l_id l) (l_ether l) (l_mult l) (l_hint l) (l_cost l)
      (l_nlq l) (l_slq l) (l_snlq l) e.

(** default_lq_ff_timer, src/lq_plugin_default_ff.c:217-274 *)
Definition timer (k : lqk) (ls : list ffl) : list ffl :=
  fst (lqchange k
    (map (fun l => with_est l
            (est_tick k (l_ether l) (l_mult l) (l_hint l) (l_est l))) ls)).

(** What can happen to the links: a link appears (add_link_entry,
    src/link_set.c:532-628: linkcost is LINK_COST_BROKEN at 605, the hello
    interval is set at 597, the multiplier at 602), disappears
    (olsr_delete_link_entry, src/link_set.c:368-402), a packet arrives on it,
    a HELLO is lost on it (olsr_expire_link_loss_timer,
    src/link_set.c:428-440), the neighbor's HELLO reports its quality
    (default_lq_memorize_foreign_hello_ff, src/lq_plugin_default_ff.c:360-371,
    called from update_link_entry), the hello interval is changed
    (olsr_update_packet_loss_hello_int, src/link_set.c:837-841), the second
    timer fires (src/lq_plugin_default_ff.c:280). *)
Inductive lev :=
| EAdd (i : Z) (ether : bool) (mult hint : Z)
| EDel (i : Z)
| EPkt (i seq : Z)
| ELost (i : Z)
| ENlq (i v : Z)
| EHint (i h : Z)
| ETick.

(** an assignment through the link found by lookup_link_entry,
    src/link_set.c:659-682 *)
Definition on_link (i : Z) (f : ffl -> ffl) (ls : list ffl) : list ffl :=
  map (fun l => if l_id l =? i then f l else l) ls.

(** missed_hellos++, default_lq_packet_loss_worker_ff,
    src/lq_plugin_default_ff.c:348-358 *)
Definition est_lost (e : est) : est :=
  Est (e_lq e) (e_win e) (e_ptr e) (e_seq e) (u16 (e_miss e + 1)) (e_perf e)
      (e_recv e) (e_tot e).

(** one event; citations at [lev]; src/lq_plugin_default_ff.c *)
Definition lstep (k : lqk) (ls : list ffl) (ev : lev) : list ffl :=
  match ev with
  | EAdd i ether mult hint =>
      if existsb (fun l => l_id l =? i) ls then ls
      else Ffl i ether mult hint LC_BROKEN 0 0 0 est0 :: ls
  | EDel i => filter (fun l => negb (l_id l =? i)) ls
  | EPkt i s => on_link i (fun l => with_est l (est_packet s (l_est l))) ls
  | ELost i => on_link i (fun l => with_est l (est_lost (l_est l))) ls
  | ENlq i v =>
      on_link i (fun l => Ffl (l_id l) (l_ether l) (l_mult l) (l_hint l)
                   (l_cost l) v (l_slq l) (l_snlq l) (l_est l)) ls
  | EHint i h =>
      on_link i (fun l => Ffl (l_id l) (l_ether l) (l_mult l) h
                   (l_cost l) (l_nlq l) (l_slq l) (l_snlq l) (l_est l)) ls
  | ETick => timer k ls
  end.

(** a run from the empty link set (src/link_set.c:66, 88) *)
Definition lqrun (k : lqk) (evs : list lev) : list ffl :=
  fold_left (lstep k) evs [].

(** ** etx_fpm *)

(** struct default_lq_fpm, src/lq_plugin_default_fpm.h:58-62, with the link's
    cost *)
Record fpq := Fpq {
  p_lq : Z; p_nlq : Z; p_qs : Z; p_cost : Z
}.

(** LQ_FPM_INTERNAL_MULTIPLIER and LQ_FPM_LINKCOST_MULTIPLIER,
    src/lq_plugin_default_fpm.h:53-54 *)
Definition FPM_M : Z := 65535.

(** aging_quickstart_new, src/lq_plugin_default_fpm.c:107,
    src/lq_plugin.h:64 *)
Definition QS_NEW : Z := 16383.

(** LQ_QUICKSTART_STEPS, src/lq_plugin.h:63 *)
Definition QS_STEPS : Z := 12.

(** default_lq_calc_cost_fpm, src/lq_plugin_default_fpm.c:111-128 *)
Definition fpm_cost (lq nlq : Z) : Z :=
  if (lq <? LQ_USEFUL) || (nlq <? LQ_USEFUL) then LC_BROKEN
  else
    let cost := FPM_M * 255 / lq * 255 / nlq in
    if cost >=? LC_BROKEN then LC_BROKEN
    else if cost =? 0 then 1 else cost.

(** the exponential moving average,
    src/lq_plugin_default_fpm.c:190-201 *)
Definition fpm_average (anew aold mult lq : Z) (lost : bool) : Z :=
  let v0 := u32 (lq * FPM_M) / 255 in
  let v1 := u32 (v0 * aold + FPM_M - 1) / FPM_M in
  let v2 := if lost then v1
            else u32 (v1 + u32 (anew * mult + 65536 - 1) / 65536) in
  u8 (u32 (v2 * 255 + FPM_M - 1) / FPM_M).

(** default_lq_packet_loss_worker_fpm,
    src/lq_plugin_default_fpm.c:176-205; [aging] is aging_factor_new and
    aging_factor_old is FPM_M - aging (line 105) *)
Definition fpm_worker (aging mult : Z) (lost : bool) (p : fpq) : fpq :=
  let quick := p_qs p <? QS_STEPS in
  let anew := if quick then QS_NEW else aging in
  let aold := FPM_M - anew in
  let lq := fpm_average anew aold mult (p_lq p) lost in
  Fpq lq (p_nlq p) (if quick then p_qs p + 1 else p_qs p)
      (fpm_cost lq (p_nlq p)).

(** default_lq_memorize_foreign_hello_fpm,
    src/lq_plugin_default_fpm.c:207-218 (the cost is recomputed by the next
    call of the worker) *)
Definition fpm_memorize (v : Z) (p : fpq) : fpq :=
  Fpq (p_lq p) v (p_qs p) (p_cost p).

(** default_lq_clear_fpm, src/lq_plugin_default_fpm.c:226-230, and the
    initial cost, src/link_set.c:605 *)
Definition fpm0 : fpq := Fpq 0 0 0 LC_BROKEN.

(** A HELLO is received or lost (olsr_received_hello_handler,
    src/link_set.c:843-851; olsr_expire_link_loss_timer, 428-440), or the
    neighbor reports a quality. *)
Inductive pev := PHello (lost : bool) | PNlq (v : Z).

(** one event of an etx_fpm link; src/lq_plugin_default_fpm.c *)
Definition fpm_step (aging mult : Z) (p : fpq) (e : pev) : fpq :=
  match e with
  | PHello lost => fpm_worker aging mult lost p
  | PNlq v => fpm_memorize v p
  end.

(** a run of an etx_fpm link from its creation; src/lq_plugin_default_fpm.c *)
Definition fpm_run (aging mult : Z) (evs : list pev) : fpq :=
  fold_left (fpm_step aging mult) evs fpm0.
