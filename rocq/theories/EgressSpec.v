(** Vocabulary for the egress file: its lines, what a line says about an interface, and
    what an interface is left with. *)
From Verif Require Import Base Regex GwSpeed Egress JsonSpec.

(** ** The syntax of a line *)
Definition is_blank (c : Z) : Prop := c = 32 \/ 9 <= c <= 13.
Definition is_digit (c : Z) : Prop := 48 <= c <= 57.
(** the characters of an address *)
Definition is_ipchar (c : Z) : Prop := is_digit c \/ c = 92 \/ c = 46 \/ c = 58.
(** the character [s] with blanks around it *)
Definition separator (s : Z) (l : list Z) : Prop := exists a b, Forall is_blank a /\ Forall is_blank b /\ l = a ++ s :: b.

Inductive gw_part : option (list Z) -> list Z -> Prop :=
| gp_none : gw_part None []
| gp_some s gw : separator 44 s -> Forall is_ipchar gw -> gw_part (Some gw) (s ++ gw).
Inductive net_part : option (option (list Z * list Z)) -> option (list Z) -> list Z -> Prop :=
| np_none : net_part None None []
| np_empty s g r : separator 44 s -> gw_part g r -> net_part (Some None) g (s ++ r)
| np_some s ip len g r : separator 44 s -> ip <> [] -> Forall is_ipchar ip -> len <> [] -> Forall is_digit len -> gw_part g r ->
    net_part (Some (Some (ip, len))) g (s ++ ip ++ 47 :: len ++ r).
Inductive cost_part : option (list Z) -> option (option (list Z * list Z)) -> option (list Z) -> list Z -> Prop :=
| cp_none : cost_part None None None []
| cp_some s pc n g r : separator 44 s -> Forall is_digit pc -> net_part n g r -> cost_part (Some pc) n g (s ++ pc ++ r).

(** interface = requireNetwork , requireGateway , uplink , downlink
    [, path cost [, [network / length] [, gateway ]]] *)
Definition egress_line (l : list Z) (g : groups) : Prop :=
  exists b s1 s2 s3 s4 r b',
    l = b ++ g_name g ++ s1 ++ g_rn g ++ s2 ++ g_rg g ++ s3 ++ g_up g ++ s4 ++ g_down g ++ r ++ b' /\
    Forall is_blank b /\ Forall is_blank b' /\
    g_name g <> [] /\ Forall (fun c => ~ is_blank c /\ c <> 61) (g_name g) /\
    separator 61 s1 /\ separator 44 s2 /\ separator 44 s3 /\ separator 44 s4 /\
    Forall is_digit (g_rn g) /\ Forall is_digit (g_rg g) /\ Forall is_digit (g_up g) /\ Forall is_digit (g_down g) /\
    cost_part (g_cost g) (g_net g) (g_gw g) r.

(** ** What the fields mean *)
(** a number; [d] when the field is empty *)
Definition number (d : Z) (s : list Z) (n : Z) : Prop :=
  (s = [] /\ n = d) \/ (s <> [] /\ n = value_of s /\ n < 2 ^ 64).
(** a number from 0 to 255 without superfluous zeros *)
Definition octet (s : list Z) (o : Z) : Prop :=
  Forall is_digit s /\ s <> [] /\ value_of s = o /\ o <= 255 /\ (forall t, s = 48 :: t -> t = []).
(** an IPv4 address *)
Definition dotted (s : list Z) (a : Z) : Prop :=
  exists s1 s2 s3 s4 o1 o2 o3 o4, s = s1 ++ 46 :: s2 ++ 46 :: s3 ++ 46 :: s4 /\
    octet s1 o1 /\ octet s2 o2 /\ octet s3 o3 /\ octet s4 o4 /\ a = ((o1 * 256 + o2) * 256 + o3) * 256 + o4.
(** an IPv4 network: the bits behind the prefix are zero *)
Definition network (ip len : list Z) (n : Z * Z) : Prop :=
  exists a, dotted ip a /\ snd n = value_of len /\ snd n <= 32 /\ fst n = a - a mod 2 ^ (32 - snd n).

Definition says (g : groups) (v : vals) : Prop :=
  (exists n, number 1 (g_rn g) n /\ v_rn v = negb (n =? 0)) /\
  (exists n, number 1 (g_rg g) n /\ v_rg v = negb (n =? 0)) /\
  (exists n, number 0 (g_up g) n /\ v_up v = Z.min n MAX_SPEED) /\
  (exists n, number 0 (g_down g) n /\ v_down v = Z.min n MAX_SPEED) /\
  (exists n, number 0 (match g_cost g with Some s => s | None => [] end) n /\ v_cost v = Z.min n (2 ^ 32 - 1)) /\
  match g_net g with
  | Some (Some (ip, len)) => exists n, v_net v = Some n /\ network ip len n
  | _ => v_net v = None
  end /\
  match g_gw g with
  | None | Some [] => v_gw v = None
  | Some s => exists a, v_gw v = Some a /\ dotted s a
  end.

(** ** The file *)
(** the text of the file is the lines [ls], each ended by a newline except perhaps the
    last one, which is then not empty *)
Inductive text : list (list Z) -> list Z -> Prop :=
| t_nil : text [] []
| t_last l : l <> [] -> text [l] l
| t_cons l ls f : text ls f -> text (l :: ls) (l ++ 10 :: f).
(** nothing but blanks, or a # after blanks *)
Definition ignored (l : list Z) : Prop :=
  Forall is_blank l \/ exists b r, Forall is_blank b /\ l = b ++ 35 :: r.
(** the line gives the values [v] to the interface [name] *)
Definition gives (name : list Z) (v : vals) (l : list Z) : Prop :=
  ~ ignored l /\ exists g, egress_line l g /\ g_name g = name /\ (length name <= 16)%nat /\ says g v.
(** ... and it is the last one to do so *)
Definition last_gives (name : list Z) (v : vals) (ls : list (list Z)) : Prop :=
  exists pre l post, ls = pre ++ l :: post /\ gives name v l /\ forall l' v', In l' post -> ~ gives name v' l'.

(** what an interface that is (not) up has with the values [v]; without a bandwidth in
    both directions it has nothing *)
Definition bandwidth (w : gwcfg) (up : bool) (v : option vals) (b : bw) : Prop :=
  b_costs b = gw_costs_weigh w up (b_cost b) (b_up b) (b_down b) /\
  match v with
  | Some v =>
      if (0 <? v_up v) && (0 <? v_down v)
      then b_rn b = v_rn v /\ b_rg b = v_rg v /\ b_up b = v_up v /\ b_down b = v_down v /\ b_cost b = v_cost v /\ b_net b = v_net v /\ b_gw b = v_gw v
      else b_rn b = true /\ b_rg b = true /\ b_up b = 0 /\ b_down b = 0 /\ b_cost b = 0 /\ b_net b = None /\ b_gw b = None
  | None => b_rn b = true /\ b_rg b = true /\ b_up b = 0 /\ b_down b = 0 /\ b_cost b = 0 /\ b_net b = None /\ b_gw b = None
  end.

(** a line which the reader takes as it is meant: short, without 0 and newlines, and
    either ignored or not indented; a carriage return is only at its end *)
Definition plain (l : list Z) : Prop :=
  (length l < 255)%nat /\ Forall (fun c => c <> 0 /\ c <> 10) l /\
  (ignored l \/ exists c r, l = c :: r /\ ~ is_blank c).

(** the relevant properties of an interface are the same *)
Definition same_link (a b : bw) : Prop :=
  b_costs a = b_costs b /\ b_rn a = b_rn b /\ b_net a = b_net b /\ b_rg a = b_rg b /\ b_gw a = b_gw b.

(** runs of the reader *)
Fixpoint polls (w : gwcfg) (p6 : list Z -> option (list Z)) (s : est) (fs : list found) : est :=
  match fs with [] => s | f :: fs' => polls w p6 (fst (fst (readEgressFile w p6 s f))) fs' end.
(** src/gateway.c:834-860: the interfaces at the start *)
Definition fresh (w : gwcfg) (e : eif) : Prop :=
  e_prev e = e_cur e /\ bandwidth w (e_up e) None (e_cur e).
