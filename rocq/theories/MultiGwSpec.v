(** The kernel's routes, and what is wanted for several uplinks. *)
From Verif Require Import Base GwSpeed Egress MultiGw.

(** the routes of the kernel by table and destination *)
Definition fib : Type := Z -> Z * Z -> option rt.
Definition nofib : fib := fun _ _ => None.
Definition is_key (r : rt) (t : Z) (d : Z * Z) : bool := (t =? r_table r) && ((fst d =? fst (r_dst r)) && (snd d =? snd (r_dst r))).
(** a request that succeeds: a new route replaces the one for the same destination; a route
    is deleted only if it is the one that is asked for *)
Definition kreq (F : fib) (q : req) : fib :=
  match q with
  | (true, r, true) => fun t d => if is_key r t d then Some r else F t d
  | (false, r, true) => fun t d => if is_key r t d then match F t d with Some x => if rt_eqb x r then None else Some x | None => None end else F t d
  | _ => F
  end.
Definition kreqs (F : fib) (qs : list req) : fib := fold_left kreq qs F.
(** the kernel removes the routes of an interface that goes down *)
Definition kflush (i : Z) (F : fib) : fib := fun t d => match F t d with Some r => if r_if r =? i then None else Some r | None => None end.

(** what is reached from the start: [A] is what is assumed about the answers of the system
    in each step, [fl] tells whether interfaces go down *)
Inductive reach (C : mcfg) (A : option gop -> world -> mgw -> fib -> mgw -> Prop) (fl : bool) : mgw -> fib -> Prop :=
| reach_start xs W f : A None W (init C xs) nofib (fst (startup C W f (init C xs))) ->
    reach C A fl (fst (startup C W f (init C xs))) (kreqs nofib (snd (startup C W f (init C xs))))
| reach_step g F W o : reach C A fl g F -> A (Some o) W g F (fst (gstep C W o g)) ->
    reach C A fl (fst (gstep C W o g)) (kreqs F (snd (gstep C W o g)))
| reach_flush g F i : reach C A fl g F -> fl = true -> reach C A fl g (kflush i F).

(** deletions succeed, and there is no route over an interface that is not up *)
Definition tidy (o : option gop) (W : world) (g : mgw) (F : fib) (g' : mgw) : Prop :=
  (forall r, w_ok W false r = true) /\ forall t d r, F t d = Some r -> w_up W (r_if r) = true.
(** all requests succeed and all interfaces are up; an interface that is added is not yet
    up or keeps its index; no network is 0.0.0.0/0 *)
Definition smooth (o : option gop) (W : world) (g : mgw) (F : fib) (g' : mgw) : Prop :=
  (forall a r, w_ok W a r = true) /\ (forall i, w_up W i = (0 <? i)) /\
  match o with
  | None => forall m, In m (g_ifs g) -> e_up (m_e m) = true -> 0 < e_index (m_e m)
  | Some (IfChange i false (IfAdd (Some name))) => 0 < i /\ forall m, In m (g_ifs g) -> e_name (m_e m) = name -> e_up (m_e m) = true -> e_index (m_e m) = i
  | _ => True
  end /\
  forall m, In m (g_ifs g') -> b_net (e_cur (m_e m)) <> Some (0, 0).
(** ... and the gateway is not lost *)
Definition steady (o : option gop) (W : world) (g : mgw) (F : fib) (g' : mgw) : Prop := smooth o W g F g' /\ o <> Some LoseGw.

(** the tables of the interfaces are different from each other and from the others *)
Definition tables_ok (C : mcfg) (g : mgw) : Prop :=
  NoDup (mc_rt C :: mc_off C :: map m_table (g_ifs g)).

(** a route over interface [i], through [gw] if there is one *)
Definition goes (table : Z) (dst : Z * Z) (i : Z) (gw : option Z) (r : rt) : Prop :=
  r_table r = table /\ r_dst r = dst /\ r_if r = i /\ r_gw r = gw /\ r_black r = false.

(** the first of the cheapest interfaces that are up and usable *)
Definition usable (m : mif) : Prop := e_up (m_e m) = true /\ m_costs m < INT64_MAX.
Definition cheapest (ms : list mif) (i : nat) : Prop :=
  exists m, nth_error ms i = Some m /\ usable m /\
    forall j m', nth_error ms j = Some m' -> usable m' -> m_costs m <= m_costs m' /\ (m_costs m' = m_costs m -> (i <= j)%nat).
(** the route goes over an interface only if it is not more expensive than the gateway *)
Inductive choice (ms : list mif) (gw : option gwc) : option (nat + Z) -> Prop :=
| choice_none : (forall m, In m ms -> ~ usable m) -> gw = None -> choice ms gw None
| choice_egress i m : cheapest ms i -> nth_error ms i = Some m -> (forall c, gw = Some c -> m_costs m <= gw_cost c) -> choice ms gw (Some (inl i))
| choice_olsr c : gw = Some c -> (forall m, In m ms -> usable m -> gw_cost c < m_costs m) -> choice ms gw (Some (inr (gw_id c))).

(** the options of olsrd.conf are 8-bit numbers, the threshold a 32-bit one *)
Definition weights_ok (w : gwcfg) : Prop := 0 <= gc_up w <= 255 /\ 0 <= gc_down w <= 255 /\ 0 <= gc_etx w <= 255 /\ 0 <= gc_div w <= 255.
(** the gateway that can be used *)
Definition offered (g : mgw) : option gwc :=
  match g_gw g with Some c => if g_alldown g || (gw_cost c =? INT64_MAX) then None else Some c | None => None end.
Definition link (g : mgw) : option (nat + Z) := if ov_valid (g_ov g) then ov_link (g_ov g) else None.
(** the interface over which that link goes; 0 if there is none *)
Definition link_if (g : mgw) : Z :=
  match link g with
  | Some (inl i) => match nth_error (g_ifs g) i with Some m => e_index (m_e m) | None => 0 end
  | Some (inr _) => match g_gw g with Some c => match gw_tun c with Some t => t | None => 0 end | None => 0 end
  | None => 0
  end.

(** an interface is to have a route to its network, and a default route *)
Definition net_wanted (m : mif) (d : Z * Z) : Prop := e_up (m_e m) = true /\ b_rn (e_cur (m_e m)) = true /\ b_net (e_cur (m_e m)) = Some d.
Definition def_wanted (m : mif) : Prop := e_up (m_e m) = true /\ (b_rg (e_cur (m_e m)) = true -> b_gw (e_cur (m_e m)) <> None).
