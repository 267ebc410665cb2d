(** C147: what the scanner makes of a configuration file. *)
From Coq Require Import String.
From Verif Require Import Base Regex NameSvcSpec NameSvcProofs ConfScan ConfScanSpec ConfScanProofs ConfScanFileProofs.

(** A file that consists of keywords, numbers, addresses, strings, punctuation,
    blanks, ends of lines and comments that are ended by a line end is read as just
    these, in this order, and the lines are counted. *)
Theorem C147_file s ts n : file s ts n -> scan s = ts /\ lines s = 1 + n.
Proof. apply file_ok. Qed.
Print Assumptions C147_file.
Definition c147_text : list Z := str "Hna6 {" ++ [10; 9] ++ str "fe80::1:0/0x40 # link" ++ [13; 10] ++ str "}" ++ [10] ++ str "LoadPlugin " ++ [34] ++ str "a#b" ++ [34; 10] ++ str "Pollrate 0.05".
Example C147_file_ex : file c147_text
  [TWord "HNA6"; TOpen; TIp6 (str "fe80::1:0"); TSlash; TInt 64; TComment; TClose; TWord "PLUGIN"; TString (str "a#b"); TWord "POLLRATE"; TFloat (str "0.05")] 4.
Proof.
  unfold c147_text.
  assert (E : forall c r, existsb (Z.eqb c) [32; 9; 10; 13; 47; 123; 125; 35; 34] = true -> @eq (list Z) (c :: r) [] \/ exists c' r', c :: r = c' :: r' /\ ends c').
  { intros c r H. right. exists c, r. split; [reflexivity|]. now apply endsb_ok. }
  apply (F_item (str "Hna6")); [apply I_word; vm_compute; tauto|now apply E|].
  apply F_blank; [cbn; tauto|]. apply (F_closed [123]); [constructor|]. change 4 with (3 + 1). apply F_nl. apply F_blank; [cbn; tauto|].
  apply (F_item (str "fe80::1:0")); [apply I_ip6; right; exists [str "fe80"], [str "1"; str "0"]; split; [cbn; lia|]; split; [|reflexivity]|now apply E|].
  { cbn [app]. do 3 (apply Forall_cons; [split; [cbn; lia|now apply hexs]|]). apply Forall_nil. }
  apply (F_closed [47]); [constructor|].
  apply (F_item (str "0x40") (TInt 64)); [|now apply E|].
  { apply (I_hex (str "40")); [discriminate|now apply hexs|reflexivity]. }
  apply F_blank; [cbn; tauto|]. change 3 with (2 + 1). apply (F_comment (str " link" ++ [13])); [vm_compute; intuition lia|].
  apply (F_closed [125]); [constructor|]. change 2 with (1 + 1). apply F_nl.
  apply (F_item (str "LoadPlugin")); [apply I_word; vm_compute; tauto|now apply E|]. apply F_blank; [cbn; tauto|].
  apply (F_closed (34 :: str "a#b" ++ [34])); [constructor; vm_compute; intuition lia|]. change 1 with (0 + 1). apply F_nl.
  apply (F_item (str "Pollrate")); [apply I_word; vm_compute; tauto|now apply E|]. apply F_blank; [cbn; tauto|].
  apply (F_item (str "0.05") (TFloat (str "0.05")) []); [|now left|constructor].
  apply (I_float (str "0") (str "05")); (split; [discriminate|now apply digs]).
Qed.

(** Whatever the file contains: all of it is read, and every token stands in the file
    as text of the form that belongs to it. *)
Definition within (t s : list Z) : Prop := exists a b, s = a ++ t ++ b.
Theorem C147_tokens s : concat (map snd (lexemes (length s) s)) = s /\ forall k, In k (scan s) ->
  match k with
  | TWord t => exists w, In (w, t) words /\ within (str w) s
  | TInt z => 0 <= z < 2 ^ 32
  | TFloat t => within t s /\ exists a b, some_digits a /\ some_digits b /\ t = a ++ 46 :: b
  | TBool b => within (str (if b then "yes" else "no")) s
  | TString t => ~ In 34 t /\ within (34 :: t ++ [34]) s
  | TIp4 t => ip4_text t /\ within t s
  | TIp6 t => ip6_text t /\ within t s
  | TSlash => In 47 s
  | TOpen => In 123 s
  | TClose => In 125 s
  | TComment => exists l, ~ In 10 l /\ within (35 :: l ++ [10]) s
  end.
Proof.
  split; [now apply lexemes_whole|]. intros k I. unfold scan in I. apply in_somes in I. apply in_map_iff in I as ([kd t] & T & I).
  apply lexemes_in in I as (F & W). apply first_in in F as (r & R & L). apply rules_kind in R. destruct kd; cbn [tok_of] in T; try discriminate; apply Some_inj in T; subst k; subst.
  - apply comment_ok in L as (a & l & -> & A & N). exists l. split; [exact N|]. destruct W as (x & y & ->). exists (x ++ a), y. rewrite <- !app_assoc. reflexivity.
  - apply chr_ok in L. subst t. destruct W as (x & y & ->). rewrite !in_app_iff. cbn. tauto.
  - apply chr_ok in L. subst t. destruct W as (x & y & ->). rewrite !in_app_iff. cbn. tauto.
  - apply chr_ok in L. subst t. destruct W as (x & y & ->). rewrite !in_app_iff. cbn. tauto.
  - apply string_ok in L as (l & -> & N). cbn [length skipn]. rewrite app_length. cbn [length]. replace (Datatypes.S (length l + 1) - 2)%nat with (length l) by lia.
    rewrite firstn_app, Nat.sub_diag, firstn_all. cbn [firstn]. rewrite app_nil_r. split; [exact N|exact W].
  - unfold u32. apply Z.mod_pos_bound. lia.
  - apply float_ok in L. split; [exact W|exact L].
  - apply ip4_ok in L. split; [exact L|exact W].
  - apply ip6_ok in L. split; [exact L|exact W].
  - destruct R as (w & Iw & ->). apply lit_ok in L. subst t. now exists w.
  - unfold u32. apply Z.mod_pos_bound. lia.
  - apply lit_ok in L. subst t. exact W.
Qed.
Print Assumptions C147_tokens.
Example C147_tokens_ex : In (TIp6 (str "fe80::1:0")) (scan c147_text). Proof. vm_compute. tauto. Qed.

(** A comment in the last line that is not ended by a line end is not a comment:
    the option in it is set. *)
Theorem C147_comment_refuted : exists l, ~ In 10 l /\ scan (35 :: l) = [TWord "WILLINGNESS"; TInt 7].
Proof. exists (str "Willingness 7"). split; [vm_compute; intuition lia|vm_compute; reflexivity]. Qed.
Print Assumptions C147_comment_refuted.
(** What is not known is skipped: wrong keywords are read as what is inside of
    them, signs, points and exponents are lost. *)
Theorem C147_unknown_refuted :
  scan (str "NoWillingness 7") = scan (str "Willingness 7") /\ scan (str "Willingness -7") = scan (str "Willingness 7") /\
  scan (str "Pollrate .5") = scan (str "Pollrate 5") /\ scan (str "Pollrate 1e-1") = [TWord "POLLRATE"; TInt 1; TInt 1] /\
  scan (str "willingness 7") = [TInt 7] /\ scan (str "Interface nothing") = [TWord "INTERFACE"; TBool false].
Proof. vm_compute. repeat split. Qed.
Print Assumptions C147_unknown_refuted.
(** Decimal digits are not always a decimal number, and large numbers wrap. *)
Theorem C147_number_refuted : scan (str "010") = [TInt 8] /\ scan (str "09") = [TInt 0] /\ scan (str "4294967296") = [TInt 0] /\
  scan (str "99999999999999999999") = [TInt 4294967295].
Proof. vm_compute. repeat split. Qed.
Print Assumptions C147_number_refuted.
(** An IPv6 address with an embedded IPv4 address (RFC 4291, 2.2, form 3) is read as
    another address and numbers. *)
Theorem C147_embedded_refuted : scan (str "::ffff:10.20.30.40") = [TIp6 (str "::ffff:10"); TFloat (str "20.30"); TInt 40].
Proof. vm_compute. reflexivity. Qed.
Print Assumptions C147_embedded_refuted.
(** Line ends in strings are not counted: the line of an error message is too small. *)
Theorem C147_line_refuted : exists s, file ((34 :: s ++ [34]) ++ [10]) [TString s] 1 /\ In 10 s /\ lines ((34 :: s ++ [34]) ++ [10]) = 2.
Proof.
  exists [97; 10; 98]. split; [|split; [cbn; tauto|vm_compute; reflexivity]]. apply F_closed; [constructor; cbn; lia|]. change 1 with (0 + 1). apply F_nl. constructor.
Qed.
Print Assumptions C147_line_refuted.
