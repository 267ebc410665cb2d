(** What status and mode of a GPRMC sentence mean *)
From Coq Require Import String.
From Verif Require Import Base Regex.

(** the letters of the modes with their signals *)
Definition mode_table : list (Z * Z) := [(78, 0); (65, 1); (68, 2); (80, 3); (82, 4); (70, 5); (69, 6); (77, 7); (83, 8)].
(** A says that the data are valid and V that they are not *)
Definition A_ : Z := 65.
Definition V_ : Z := 86.
