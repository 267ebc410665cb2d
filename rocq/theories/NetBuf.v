(** Output buffers of interfaces (src/net_olsr.c, src/interfaces.h:112-118).

    The buffer is a list of bytes, NULL is [None]; a write or read outside the
    buffer or through NULL makes the operation [None].  Not modelled: addresses
    and sockets; whether sendto succeeds is an argument. *)
From Verif Require Import Base Bytes.

(** struct olsr_netbuf, src/interfaces.h:112-118, and olsr_seqnum of the
    interface, src/interfaces.h:146 *)
Record nb := mkNB { nb_buf : option (list Z); nb_size : Z; nb_max : Z; nb_pend : Z; nb_res : Z; nb_seq : Z }.

(** src/olsr_protocol.h:62 OLSR_HEADERSIZE, length and sequence number *)
Definition HDR : Z := 4.

(** memcpy of [d] to offset [i]; src/net_olsr.c:225, 248 *)
Definition wr (b : list Z) (i : Z) (d : list Z) : option (list Z) :=
  if (0 <=? i) && (i + blen d <=? blen b)
  then Some (firstn (Z.to_nat i) b ++ d ++ skipn (Z.to_nat (i + blen d)) b) else None.
(** htons; src/net_olsr.c:356-358 *)
Definition net16 (n : Z) : list Z := [u16 n / 256; u16 n mod 256].

(** an interface before net_add_buffer: zeroed memory; src/unix/ifnet.c:417, 855 *)
Definition nb_zero (seq : Z) : nb := mkNB None 0 0 0 0 seq.

(** src/net_olsr.c:122-145 net_add_buffer; [mtu] is int_mtu.  olsr_malloc zeroes. *)
Definition net_add_buffer (mtu : Z) (b : nb) : nb :=
  let buf := match nb_buf b with Some x => if nb_size b =? mtu then Some x else None | None => None end in
  let buf := match buf with None => repeat 0 (Z.to_nat mtu) | Some x => x end in
  mkNB (Some buf) mtu (mtu - HDR) 0 0 (nb_seq b).

(** src/net_olsr.c:182-192 net_reserve_bufspace *)
Definition net_reserve_bufspace (b : nb) (size : Z) : nb * Z :=
  if size >? nb_max b then (b, -1)
  else (mkNB (nb_buf b) (nb_size b) (nb_max b - size) (nb_pend b) size (nb_seq b), 0).

(** src/net_olsr.c:225-226, 248-249: copy behind what is pending *)
Definition append (b : nb) (d : list Z) : option nb :=
  match nb_buf b with
  | None => None
  | Some buf => match wr buf (nb_pend b + HDR) d with
                | None => None
                | Some buf' => Some (mkNB (Some buf') (nb_size b) (nb_max b) (nb_pend b + blen d) (nb_res b) (nb_seq b))
                end
  end.
(** src/net_olsr.c:219-229 net_outbuffer_push *)
Definition net_outbuffer_push (b : nb) (d : list Z) : option (nb * Z) :=
  if nb_pend b + blen d >? nb_max b then Some (b, 0)
  else option_map (fun b' => (b', blen d)) (append b d).
(** src/net_olsr.c:242-252 net_outbuffer_push_reserved *)
Definition net_outbuffer_push_reserved (b : nb) (d : list Z) : option (nb * Z) :=
  if nb_pend b + blen d >? nb_max b + nb_res b then Some (b, 0)
  else option_map (fun b' => (b', blen d)) (append b d).

(** src/net_olsr.c:262-273 net_outbuffer_bytes_left *)
Definition MAX_REMAINING : Z := 1280 - 40 - 8 - 4.
(** see above, src/net_olsr.c:262-273 *)
Definition net_outbuffer_bytes_left (b : nb) : Z :=
  let remaining := nb_max b - nb_pend b in
  if remaining >? MAX_REMAINING then MAX_REMAINING else remaining.

(** src/net_olsr.c:202-206 net_output_pending; the result is a uint16_t *)
Definition net_output_pending (b : nb) : Z := u16 (nb_pend b).

(** packet transform functions of plugins, src/net_olsr.c:283-327: they get the
    buffer and the pending count and may change both *)
Definition ptf := list Z -> Z -> option (list Z * Z).
(** see above, src/net_olsr.c:283-327 *)
Fixpoint run_ptfs (l : list ptf) (buf : list Z) (pend : Z) : option (list Z * Z) :=
  match l with
  | [] => Some (buf, pend)
  | f :: l' => match f buf pend with Some (b, p) => run_ptfs l' b p | None => None end
  end.

(** src/net_olsr.c:336-421 net_output: new state, return value, packet handed to
    sendto; [ok] tells whether sendto succeeds *)
Definition net_output (ptfs : list ptf) (ok : bool) (b : nb) : option (nb * Z * option (list Z)) :=
  if nb_pend b =? 0 then Some (b, 0, None)
  else
    match nb_buf b with
    | None => None
    | Some buf =>
        let pend := nb_pend b + HDR in
        match wr buf 2 (net16 (nb_seq b)) with
        | None => None
        | Some buf1 =>
            match wr buf1 0 (net16 pend) with
            | None => None
            | Some buf2 =>
                match run_ptfs ptfs buf2 pend with
                | None => None
                | Some (buf3, pend3) =>
                    match rdn buf3 0 pend3 with
                    | None => None
                    | Some pkt => Some (mkNB (Some buf3) (nb_size b) (nb_max b) 0 (nb_res b) (u16 (nb_seq b + 1)),
                                        if ok then pend else -1, Some pkt)
                    end
                end
            end
        end
    end.

(** src/net_olsr.c:155-166 net_remove_buffer *)
Definition net_remove_buffer (ptfs : list ptf) (ok : bool) (b : nb) : option (nb * option (list Z)) :=
  match (if nb_pend b =? 0 then Some (b, 0, None) else net_output ptfs ok b) with
  | None => None
  | Some (b', _, pkt) => Some (mkNB None (nb_size b') (nb_max b') (nb_pend b') (nb_res b') (nb_seq b'), pkt)
  end.

(** src/unix/ifnet.c:214-219: the MTU of the interface has changed *)
Definition change_mtu (ptfs : list ptf) (ok : bool) (mtu : Z) (b : nb) : option (nb * option (list Z)) :=
  match net_remove_buffer ptfs ok b with
  | None => None
  | Some (b', pkt) => Some (net_add_buffer mtu b', pkt)
  end.

(** what can happen to a buffer; src/net_olsr.h *)
Inductive nbop := OPush (d : list Z) | OPushRes (d : list Z) | OReserve (n : Z) | OLeft | OOutput (ok : bool) | OMtu (mtu : Z) (ok : bool).
(** what is seen: value returned, packet sent; src/net_olsr.c *)
Definition nbobs := (Z * option (list Z))%type.

(** one call, src/net_olsr.c *)
Definition nbstep (ptfs : list ptf) (b : nb) (o : nbop) : option (nb * nbobs) :=
  match o with
  | OPush d => match net_outbuffer_push b d with Some (b', r) => Some (b', (r, None)) | None => None end
  | OPushRes d => match net_outbuffer_push_reserved b d with Some (b', r) => Some (b', (r, None)) | None => None end
  | OReserve n => let (b', r) := net_reserve_bufspace b n in Some (b', (r, None))
  | OLeft => Some (b, (net_outbuffer_bytes_left b, None))
  | OOutput ok => match net_output ptfs ok b with Some (b', r, p) => Some (b', (r, p)) | None => None end
  | OMtu mtu ok => match change_mtu ptfs ok mtu b with Some (b', p) => Some (b', (0, p)) | None => None end
  end.
(** calls one after the other, src/net_olsr.c *)
Fixpoint nbrun (ptfs : list ptf) (b : nb) (ops : list nbop) : option (nb * list nbobs) :=
  match ops with
  | [] => Some (b, [])
  | o :: ops' => match nbstep ptfs b o with
                 | None => None
                 | Some (b', x) => match nbrun ptfs b' ops' with Some (b2, xs) => Some (b2, x :: xs) | None => None end
                 end
  end.
