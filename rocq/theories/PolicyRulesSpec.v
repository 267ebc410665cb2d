(** The rules that are wanted. *)
From Verif Require Import Base PolicyRules.

Inductive needed (c : rconf) (ifs : list (list Z)) : rule -> Prop :=
| needed_main : forall q, q_main c = Some q -> needed c ifs (mkRule (t_main c) q None)
| needed_tunnel : forall q, q_tunnel c = Some q -> needed c ifs (mkRule (t_tunnel c) q None)
| needed_default : forall q, q_default c = Some q -> needed c ifs (mkRule (t_default c) q None)
| needed_if : forall q n, q_olsr c = Some q -> In n ifs -> needed c ifs (mkRule (t_default c) q (Some n)).
(** the priorities differ, as the check of the configuration makes sure *)
Definition distinct (c : rconf) : Prop :=
  (forall q, q_main c = Some q -> q_tunnel c <> Some q /\ q_olsr c <> Some q /\ q_default c <> Some q) /\
  (forall q, q_tunnel c = Some q -> q_olsr c <> Some q /\ q_default c <> Some q) /\ (forall q, q_olsr c = Some q -> q_default c <> Some q).
(** rules of others: for other tables or with other priorities *)
Definition foreign (c : rconf) (r : rule) : Prop :=
  ~ (r_tab r = t_main c /\ q_main c = Some (r_pri r)) /\ ~ (r_tab r = t_tunnel c /\ q_tunnel c = Some (r_pri r)) /\
  ~ (r_tab r = t_default c /\ (q_default c = Some (r_pri r) \/ q_olsr c = Some (r_pri r))).
