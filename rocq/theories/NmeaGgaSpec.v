(** The fields of a GPGGA sentence *)
From Verif Require Import Base NmeaScan NmeaTime NmeaGsvSpec NmeaGga.

(** what is stored for a number or a letter that may be empty *)
Definition od (abs : bool) (o : option (list Z)) : val := match o with Some t => VDbl abs t | None => VKeep end.
Definition oc (o : option Z) : val := match o with Some c => VChar c | None => VKeep end.
Definition os (o : option (list Z)) : val := match o with Some t => VStr t | None => VKeep end.
(** nothing is known *)
Definition unknown : ginfo := mkGi None None None None None None None None None None.
