(** C148: the checksum of the configuration. *)
From Coq Require Import String.
From Verif Require Import Base Regex ConfScan ConfScanSpec ConfScanProofs ConfScanFileProofs ConfSum ConfSumSpec ConfSumProofs.

(** The checksum depends on the arguments and the words of the file only: files that
    differ in blanks, line ends and comments have the same. *)
Theorem C148_same argv s s' xs : texts s xs -> texts s' xs -> checksum argv s = checksum argv s'.
Proof. intros H H'. unfold checksum. fold (added s) (added s'). now rewrite (texts_ok s xs H), (texts_ok s' xs H'). Qed.
Print Assumptions C148_same.
Example C148_same_ex : let s := str "Willingness 3" in let s' := str "# mine" ++ [10; 9] ++ str "Willingness" ++ [13; 10; 32] ++ str "3" ++ [10] in
  texts s [str "Willingness"; str "3"] /\ texts s' [str "Willingness"; str "3"] /\ checksum [str "olsrd"] s = checksum [str "olsrd"] s' /\
  checksum [str "olsrd"] s <> checksum [str "olsrd"] (str "Willingness 4") /\ checksum [str "olsrd"] s <> checksum [str "olsrd -d"] s.
Proof.
  cbv zeta.
  assert (E : forall c r, existsb (Z.eqb c) [32; 9; 10; 13; 47; 123; 125; 35; 34] = true -> @eq (list Z) (c :: r) [] \/ exists c' r', c :: r = c' :: r' /\ ends c').
  { intros c r H. right. exists c, r. split; [reflexivity|]. now apply endsb_ok. }
  assert (I3 : item (str "3") (TInt 3)) by (apply (I_int (str "3")); [split; [split; [discriminate|now apply digs]|intros X; vm_compute in X; discriminate]|reflexivity]).
  assert (IW : item (str "Willingness") (TWord "WILLINGNESS")) by (apply I_word; vm_compute; tauto).
  split; [|split; [|split; [vm_compute; reflexivity|split; vm_compute; discriminate]]].
  - apply (X_item (str "Willingness") _ _ _ IW); [now apply E|]. apply X_blank; [cbn; tauto|]. apply (X_item (str "3") _ [] _ I3); [now left|constructor].
  - apply (X_comment (str " mine")); [vm_compute; intuition lia|]. apply X_blank; [cbn; tauto|].
    apply (X_item (str "Willingness") _ _ _ IW); [now apply E|]. apply X_crnl. apply X_blank; [cbn; tauto|]. apply (X_item (str "3") _ [10] _ I3); [now apply E|]. apply X_nl. constructor.
Qed.

(** Whatever the file contains, when every argument ends with an ASCII character
    nothing undefined happens - in particular nothing is read beyond the end of a word -
    and the text of the checksum is eight hexadecimal digits with its value. *)
Theorem C148_defined_partial argv s : Forall ascii_end argv ->
  exists h, checksum argv s = Some h /\ 0 <= h < 2 ^ 32 /\
    length (sum_text h) = 8%nat /\ Forall (fun c => digit c \/ 97 <= c <= 102) (sum_text h) /\ number 16 (sum_text h) = h.
Proof.
  intros A. unfold checksum. fold (added s).
  destruct (sum_adds_ok (cli_texts argv ++ added s) 0) as (h & E & W); [split; lia| |].
  - apply Forall_app. split; [|apply added_ends]. unfold cli_texts. constructor; [vm_compute; split; congruence|]. apply Forall_app; split; [exact A|constructor; [vm_compute; split; congruence|constructor]].
  - exists h. split; [exact E|]. split; [exact W|]. apply hexdigits_ok. exact W.
Qed.
Print Assumptions C148_defined_partial.
Example C148_defined_ex : checksum [str "/usr/sbin/olsrd"] (str "MainIp 10.0.10.10") = Some 2451920011 /\ sum_text 2451920011 = str "9225548b".
Proof. vm_compute. split; reflexivity. Qed.

(** An argument that ends with another character - here a letter in Latin-1 - may
    shift a negative number. *)
Theorem C148_defined_refuted : exists argv, Forall (Forall (fun c => 0 < c < 256)) argv /\ forall s, checksum argv s = None.
Proof.
  exists [str "olsrd"; str "-f"; str "caf" ++ [233; 47; 0xfc; 0xfc]]. split; [|intros s; unfold checksum, cli_texts; cbn [app]].
  - vm_compute. repeat (constructor; try reflexivity).
  - generalize (map snd (filter (fun p => adds (fst p)) (lexemes (length s) s))). intros l. vm_compute. reflexivity.
Qed.
Print Assumptions C148_defined_refuted.

(** Different configurations may have the same checksum, even when they differ in one
    address only. *)
Theorem C148_different_refuted : exists argv a b, ip4_text a /\ ip4_text b /\ a <> b /\
  checksum argv (str "MainIp " ++ a) = checksum argv (str "MainIp " ++ b) /\ checksum argv (str "MainIp " ++ a) <> None.
Proof.
  exists [str "/usr/sbin/olsrd"], (str "10.0.10.10"), (str "10.0.11.28").
  assert (Q : forall l, forallb digitc l = true -> (1 <= length l <= 3)%nat -> quad_text l) by (intros l H L; split; [exact L|now apply digs]).
  split; [exists (str "10"), (str "0"), (str "10"), (str "10"); split; [do 4 (apply Forall_cons; [apply Q; [reflexivity|cbn; lia]|]); apply Forall_nil|reflexivity]|].
  split; [exists (str "10"), (str "0"), (str "11"), (str "28"); split; [do 4 (apply Forall_cons; [apply Q; [reflexivity|cbn; lia]|]); apply Forall_nil|reflexivity]|].
  split; [vm_compute; discriminate|]. split; [vm_compute; reflexivity|vm_compute; discriminate].
Qed.
Print Assumptions C148_different_refuted.
