(** The settings that olsrd wants, and the world before it. *)
From Coq Require Import String.
From Verif Require Import Base Regex ProcFs.

(** every entry holds one digit *)
Definition one_digit (f : procfs) : Prop := forall p x, f p = Some x -> exists d, x = [d] /\ 48 <= d <= 57.
(** an entry that olsrd can change *)
Definition open_for (c : nconf) (f : procfs) (p : path) : Prop := k_ro c p = false /\ exists x l, f p = Some (x :: l).
(** a name is of a device: "eth0", "eth0:1" *)
Definition device (name d : list Z) : Prop :=
  ~ In 58 d /\ Z.of_nat (length d) < 16 /\ (name = d \/ exists l, name = d ++ 58 :: l).
(** a number that is written in decimal *)
Definition written (ds : list Z) (v : Z) : Prop :=
  ds <> [] /\ Forall (fun d => 48 <= d <= 57) ds /\ v = fold_left (fun v d => 10 * v + (d - 48)) ds 0.
(** a release of the kernel, "2.6.31-rc1" *)
Definition release (s : list Z) (a b c : Z) : Prop :=
  exists x y z rest, s = x ++ [46] ++ y ++ [46] ++ z ++ rest /\ written x a /\ written y b /\ written z c /\
    a < 2 ^ 31 /\ b < 2 ^ 31 /\ c < 2 ^ 31 /\ (forall r l, rest = r :: l -> ~ 48 <= r <= 57).
(** it is 2.6.31 or later (there is no 2.7) *)
Definition modern (a b c : Z) : Prop := 3 <= a \/ a = 2 /\ b = 6 /\ 31 <= c.
(** the value that is wanted of an entry: '1' for forwarding, '0' for the others *)
Definition goal (p : path) : Z := match p with Fwd4 | Fwd6 => 49 | Redirect _ | Spoof _ => 48 end.
(** the entries that are to be set, with interfaces that came up *)
Inductive wanted (c : nconf) (f : procfs) (l : list nevent) : path -> Prop :=
| w_fwd4 : k_forward c = true -> k_v6 c = false -> wanted c f l Fwd4
| w_fwd6 : k_forward c = true -> k_v6 c = true -> wanted c f l Fwd6
| w_tunnel : k_sgw c = true -> k_v6 c = false \/ k_niit c = true -> wanted c f l (Spoof (str "tunl0"))
| w_all : k_v6 c = false -> wanted c f l (Redirect (str "all"))
| w_filter : forall s x y z, k_v6 c = false -> k_uts c = Some s -> release s x y z -> modern x y z -> wanted c f l (Spoof (str "all"))
| w_redirect : forall name send d, k_v6 c = false -> In (Up name send) l -> device name d -> wanted c f l (Redirect d)
| w_spoof : forall name send d, k_v6 c = false -> In (Up name send) l -> device name d -> open_for c f (Redirect d) -> wanted c f l (Spoof d).
(** interfaces only come up, and do so without failure *)
Definition stays (e : nevent) : Prop := match e with Up _ send => send = true | Emul _ => True | Down _ => False end.
