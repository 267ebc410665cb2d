(** Vocabulary for the parameters of plugins: what a number looks like in C, and
    which calls the configuration asks for. *)
From Verif Require Import Base PluginUtil.

Definition white (c : Z) : Prop := c = 32 \/ 9 <= c <= 13.
(** the value of a digit *)
Inductive digit : Z -> Z -> Prop :=
| d_num d : 0 <= d <= 9 -> digit (48 + d) d
| d_upper d : 10 <= d <= 35 -> digit (65 + (d - 10)) d
| d_lower d : 10 <= d <= 35 -> digit (97 + (d - 10)) d.
(** one or more digits *)
Inductive number (base : Z) : list Z -> Z -> Prop :=
| n_one c d : digit c d -> d < base -> number base [c] d
| n_more l v c d : number base l v -> digit c d -> d < base -> number base (l ++ [c]) (v * base + d).
(** an integer constant of C: decimal, octal or hexadecimal *)
Inductive constant : list Z -> Z -> Prop :=
| c_dec c l v : c <> 48 -> number 10 (c :: l) v -> constant (c :: l) v
| c_oct l v : number 8 (48 :: l) v -> constant (48 :: l) v
| c_hex x l v : x = 120 \/ x = 88 -> number 16 l v -> constant (48 :: x :: l) v.
(** with spaces and a sign in front *)
Inductive denotes : list Z -> Z -> Prop :=
| t_plain ws l v : Forall white ws -> constant l v -> denotes (ws ++ l) v
| t_plus ws l v : Forall white ws -> constant l v -> denotes (ws ++ 43 :: l) v
| t_minus ws l v : Forall white ws -> constant l v -> denotes (ws ++ 45 :: l) (- v).

(** the same letter, upper or lower case *)
Definition same_letter (a b : Z) : Prop := a = b \/ (65 <= a <= 90 /\ b = a + 32) \/ (65 <= b <= 90 /\ a = b + 32).
Definition same_word (a b : list Z) : Prop := Forall2 same_letter a b.

(** the entry of the table that a key is for: the first with that name or with none *)
Definition entry_for (names : list (list Z)) (key : list Z) (i : nat) : Prop :=
  (exists n, nth_error names i = Some n /\ (n = [] \/ same_word n key)) /\
  forall j m, (j < i)%nat -> nth_error names j = Some m -> m <> [] /\ ~ same_word m key.
(** the calls a list of parameters asks for, and whether the plugin takes all *)
Inductive sends (name : list Z) (l : shlib) (names : list (list Z)) : list (list Z * list Z) -> list pcall -> Prop :=
| s_nil : sends name l names [] []
| s_known k v i r cs : entry_for names k i -> l_set l i k v = 0 -> sends name l names r cs -> sends name l names ((k, v) :: r) (CSet name i k v :: cs)
| s_unknown k v r cs : (forall i, ~ entry_for names k i) -> names <> [] -> sends name l names r cs -> sends name l names ((k, v) :: r) cs.
(** a shared object that is a plugin of this version *)
Definition usable (l : shlib) (names : list (list Z)) : Prop :=
  l_open l = true /\ (exists v, l_version l = Some v /\ 5 <= v) /\ l_init l = true /\ l_params l = Some names.
(** the calls that a configuration asks for *)
Inductive loads (fs : list Z -> shlib) : list (list Z * list (list Z * list Z)) -> list pcall -> Prop :=
| o_nil : loads fs [] []
| o_cons name params names cs r cr : usable (fs name) names -> sends name (fs name) names params cs -> loads fs r cr ->
    loads fs ((name, params) :: r) (cs ++ CInit name :: cr).
