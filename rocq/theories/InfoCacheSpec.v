(** What a reply with several sections has to say *)
From Verif Require Import Base Json JsonSpec InfoCache.

(** members of an object that the writer prints correctly *)
Definition good_members (l : list (list Z * node)) : Prop :=
  Forall (fun m => clean (fst m)) l /\ Forall (fun m => printable (snd m) /\ (height (snd m) <= 14)%nat) l.
(** the section is asked for *)
Definition wants (q : ireq) (siw : Z) : Prop := Z.land (q_what q) siw <> 0.
(** [q] prints data: something at the start, and every section is some members *)
Record good_req (q : ireq) (start : list (list Z * node)) (data : Z -> option (list (list Z * node))) : Prop := {
  gr_start : q_start q = calls_members start; gr_some : start <> []; gr_good : good_members start;
  gr_data : forall siw, q_print q siw = option_map calls_members (data siw);
  gr_dgood : forall siw d, data siw = Some d -> good_members d }.

(** a request with the data of that moment *)
Record dreq := mkDQ { d_req : ireq; d_start : list (list Z * node); d_data : Z -> option (list (list Z * node)) }.
Definition good (x : dreq) : Prop := good_req (d_req x) (d_start x) (d_data x).

(** [d] is what the section is, now or not longer than the timeout ago: the data that it
    had at this request, or at an earlier one that asked for it.  Version, configuration
    and plugins are only printed once. *)
Definition startup (siw : Z) : Prop := siw = SIW_VERSION \/ siw = SIW_CONFIG \/ siw = SIW_PLUGINS.
Definition recent (timeout : Z) (past : list dreq) (x : dreq) (siw : Z) (d : list (list Z * node)) : Prop :=
  d_data x siw = Some d \/
  exists y, In y past /\ wants (d_req y) siw /\ d_data y siw = Some d /\ 0 < timeout /\ (startup siw \/ Z.abs (q_now (d_req x) siw - q_now (d_req y) siw) < timeout).
(** the sections of the reply, in the order of the table *)
Inductive shows (timeout : Z) (past : list dreq) (x : dreq) : list Z -> list (list Z * node) -> Prop :=
| sh_nil : shows timeout past x [] []
| sh_not siw tbl l : ~ wants (d_req x) siw \/ d_data x siw = None -> shows timeout past x tbl l -> shows timeout past x (siw :: tbl) l
| sh_sec siw tbl d l : wants (d_req x) siw -> d_data x siw <> None -> recent timeout past x siw d -> shows timeout past x tbl l -> shows timeout past x (siw :: tbl) (d ++ l).
