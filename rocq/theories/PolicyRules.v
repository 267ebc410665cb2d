(** The policy routing rules (src/main.c, src/linux/kernel_routes_nl.c:275-305). *)
From Verif Require Import Base.

(** a rule: the table, the priority, the interface where packets come in;
    src/linux/kernel_routes_nl.c:275-305 *)
Record rule := mkRule { r_tab : Z; r_pri : Z; r_iif : option (list Z) }.
(** no counterpart; the kernel behind src/linux/kernel_routes_nl.c:275-305 *)
Definition rule_dec (a b : rule) : {a = b} + {a <> b}.
Proof. decide equality; [decide equality; apply (list_eq_dec Z.eq_dec)|apply Z.eq_dec|apply Z.eq_dec]. Defined.

(** src/linux/kernel_routes_nl.c:275-305 olsr_os_policy_rule with [set]: RTM_NEWRULE with
    NLM_F_EXCL, the kernel takes no rule twice *)
Definition add_rule (r : rule) (ks : list rule) : list rule := if in_dec rule_dec r ks then ks else ks ++ [r].
(** without [set]: RTM_DELRULE; the kernel deletes the first rule with the attributes that are
    given; without RTA_IIF any interface will do; src/linux/kernel_routes_nl.c:275-305 *)
Definition fits (q r : rule) : bool :=
  (r_tab q =? r_tab r) && (r_pri q =? r_pri r) &&
  match r_iif q with None => true | Some n => match r_iif r with Some m => if list_eq_dec Z.eq_dec n m then true else false | None => false end end.
(** see above, src/linux/kernel_routes_nl.c:275-305 *)
Fixpoint del_rule (q : rule) (ks : list rule) : list rule :=
  match ks with [] => [] | r :: ks => if fits q r then ks else r :: del_rule q ks end.

(** src/olsr_cfg.h:290-296 the tables and the priorities, none for DEF_RT_NONE *)
Record rconf := mkRconf { t_main : Z; t_default : Z; t_tunnel : Z; q_main : option Z; q_tunnel : option Z; q_olsr : option Z; q_default : option Z }.
(** src/main.c:714-724: a rule for a table, if it has a priority *)
Definition table_rule (t : Z) (q : option Z) : list rule := match q with Some q => [mkRule t q None] | None => [] end.
(** src/main.c:727-732: the rules for the interfaces *)
Definition if_rules (c : rconf) (ifs : list (list Z)) : list rule := match q_olsr c with Some q => map (fun n => mkRule (t_default c) q (Some n)) ifs | None => [] end.
(** src/main.c:713-733 the start, with the interfaces that are there *)
Definition start_rules (c : rconf) (ifs : list (list Z)) (ks : list rule) : list rule :=
  fold_left (fun ks r => add_rule r ks) (table_rule (t_main c) (q_main c) ++ table_rule (t_tunnel c) (q_tunnel c) ++ table_rule (t_default c) (q_default c) ++ if_rules c ifs) ks.
(** src/main.c:285-295,309-321 the end, with the interfaces that are there *)
Definition stop_rules (c : rconf) (ifs : list (list Z)) (ks : list rule) : list rule :=
  fold_left (fun ks r => del_rule r ks) (if_rules c ifs ++ table_rule (t_main c) (q_main c) ++ table_rule (t_tunnel c) (q_tunnel c) ++ table_rule (t_default c) (q_default c)) ks.
(** a run: src/unix/ifnet.c:768 and src/interfaces.c:398-407 change the interfaces from [ifs] to
    [ifs'] and do not touch the rules *)
Definition rules_run (c : rconf) (ifs ifs' : list (list Z)) (ks : list rule) : list rule := stop_rules c ifs' (start_rules c ifs ks).
