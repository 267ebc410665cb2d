(** What building messages should do: format of the messages, and that nothing
    handed to the output buffer gets lost. *)
From Verif Require Import Base Bytes NetBuf NetBufSpec Parser Hello HelloSpec Tc TcSpec BuildMsg.

(** an output buffer after any history of use, within its limits *)
Definition usable (b : nb) : Prop :=
  exists mtu q ops obs, 4 <= mtu < 65536 /\ 0 <= q < 65536 /\ Forall sane ops /\
    nbrun [] (net_add_buffer mtu (nb_zero q)) ops = Some (b, obs) /\ nb_pend b <= nb_max b.
(** what is waiting in it *)
Definition waiting (b : nb) : list Z := match nb_buf b with None => [] | Some m => slice m 4 (nb_pend b) end.
Definition payload (e : bev) : list Z := match e with EOut (Some p) => skipn 4 p | _ => [] end.
Definition queued_now (e : bev) : list (list Z * Z) := match e with EPush d r => [(d, r)] | _ => [] end.

(** a state in which messages can be built: [cap] bytes fit the output buffer *)
Definition ready (cap : Z) (s : bst) : Prop :=
  usable (s_nb s) /\ cap <= nb_max (s_nb s) /\ blen (s_msg s) = 1500 /\ 0 <= s_seq s < 65536.
(** between [s] and [s'] exactly the messages [ms] were queued, all of them were
    accepted, each of them fits a packet, and the bytes sent and waiting are those that waited before and then
    the messages *)
Definition delivers (s s' : bst) (ms : list (list Z)) : Prop :=
  exists ev, s_log s' = s_log s ++ ev /\ flat_map queued_now ev = map (fun m => (m, blen m)) ms /\
    flat_map payload ev ++ waiting (s_nb s') = waiting (s_nb s) ++ concat ms /\
    (forall p, In (EOut (Some p)) ev -> blen p <= nb_size (s_nb s')) /\
    nb_size (s_nb s') = nb_size (s_nb s) /\ nb_max (s_nb s') = nb_max (s_nb s) /\ usable (s_nb s') /\
    Forall (fun m => blen m <= nb_max (s_nb s')) ms.

(** the header of all messages, and the message with its body *)
Definition message (typ vt : Z) (orig : list Z) (ttl hops seq : Z) (body : list Z) : list Z :=
  [typ; vt] ++ enc16 (8 + blen orig + blen body) ++ orig ++ [ttl; hops] ++ enc16 seq ++ body.
(** messages with consecutive numbers *)
Fixpoint numbered {A} (f : Z -> A -> list Z) (seq : Z) (l : list A) : list (list Z) :=
  match l with [] => [] | x :: l' => f seq x :: numbered f ((seq + 1) mod 65536) l' end.
Definition plus_seq (seq : Z) (n : nat) : Z := (seq + Z.of_nat n) mod 65536.

Definition addrs_ok (v6 : bool) (l : list (list Z)) : Prop := Forall (fun a => blen a = ipsz v6) l.

(** a TC message *)
Definition tc_msg (vt : Z) (m : tcm) (seq : Z) (l : list (list Z)) : list Z :=
  message 2 vt (t_orig m) (t_ttl m) (t_hop m) seq (enc16 (t_ansn m) ++ [0; 0] ++ concat l).
(** a MID message *)
Definition mid_msg (vt : Z) (main : list Z) (seq : Z) (l : list (list Z)) : list Z := message 3 vt main 255 0 seq (concat l).

(** HELLO messages: the addresses in the order of their neighbor and link types *)
Definition hello_msg (lq : bool) (vt ht will ttl : Z) (main : list Z) (seq : Z) (bs : list block) : list Z :=
  enc_hello (mkHello lq (mkHdr vt main ttl 0 seq ht will) [0; 0] bs).
Definition said (lq : bool) (bs : list block) : list hneigh := flat_map (advertised lq) bs.
Definition in_order {A} (status lnk : A -> Z) (links : list Z) (l : list A) : list A :=
  flat_map (fun i => flat_map (fun j => filter (fun n => (status n =? i) && (lnk n =? j)) l) links) [0; 1; 2].
