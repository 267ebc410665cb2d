(** Vocabulary for the host switch: the quality of links as a table. *)
From Verif Require Import Base HostSwitch.

Definition connected (cs : list oconn) (a : list Z) : Prop := exists c, In c cs /\ oc_addr c = a.
(** the quality that was set for packets from [s] to [d] *)
Definition quality (cs : list oconn) (s d : list Z) (q : Z) : Prop := exists c, In c cs /\ oc_addr c = s /\ In (mkOl d q) (oc_links c).
Definition untouched (cs : list oconn) (s d : list Z) : Prop := forall q, ~ quality cs s d q.
(** a word of the command: an address or the wildcard *)
Definition means (w : option (list Z)) (a : list Z) : Prop := w = None \/ w = Some a.
(** the links that a command is about *)
Definition selected (cs : list oconn) (bi : bool) (src dst : option (list Z)) (s d : list Z) : Prop :=
  connected cs s /\ connected cs d /\ s <> d /\
  ((means src s /\ means dst d) \/ (bi = true /\ means src d /\ means dst s)).
