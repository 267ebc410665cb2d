(** C172: the fields of an NMEA sentence *)
From Coq Require Import String.
From Verif Require Import Base Regex NmeaScan NmeaScanSpec NmeaScanProofs.

(** a sentence with its fields, and the format that reads it *)
Definition text (pre : list Z) (xs : list (list Z)) : list Z := pre ++ flat_map (fun x => 44 :: x) xs.
Definition format (pre : list Z) (ks : list kind) : list Z := pre ++ flat_map (fun k => 44 :: said k) ks ++ [42].

(** A sentence with as many fields as the format, with a checksum or without one: every field
    is stored as its kind says *)
Theorem C172_fields_partial : forall isnum pre ks xs vs tl, ~ In 37 pre -> all_give (fun t => isnum t = true) ks xs vs ->
  (tl = [] \/ exists ck, tl = 42 :: ck) ->
  nmea_scanf isnum (text pre xs ++ tl) (Some 0) (format pre ks) = Some (List.length ks, vs).
Proof.
  intros isnum pre ks xs vs tl N A T. unfold nmea_scanf, text, format. rewrite <- app_assoc. rewrite scan_pre by exact N.
  fold (fmt ks). fold (txt xs). rewrite (scan_fields isnum (Some 0) ks xs vs 42 [] tl A) by auto.
  destruct T as [->|(ck & ->)]; cbn [scan Z.eqb Pos.eqb Nat.add]; rewrite app_nil_r; reflexivity.
Qed.
Print Assumptions C172_fields_partial.
(** every text a number for strtod *)
Definition any_num (_ : list Z) : bool := true.
(** lib/pud/nmealib/src/gprmc.c:55, the format of a GPRMC sentence *)
Definition gprmc : list kind := [KText; KLetter; KNum true; KLetter; KNum true; KLetter; KNum false; KNum false; KText; KNum true; KLetter; KLetter].
Example C172_format : format (str "$GPRMC") gprmc = str "$GPRMC,%16s,%C,%F,%C,%F,%C,%f,%f,%16s,%F,%C,%C*".
Proof. reflexivity. Qed.
Example C172_fields_ex : exists vs, all_give (fun t => any_num t = true) [KText; KLetter; KInt; KUns] [str "120000.00"; []; str "-3"; str "12"] vs /\
  nmea_scanf any_num (text (str "$GPX") [str "120000.00"; []; str "-3"; str "12"] ++ str "*4B") (Some 0) (format (str "$GPX") [KText; KLetter; KInt; KUns]) = Some (4%nat, vs).
Proof.
  assert (A : all_give (fun t => any_num t = true) [KText; KLetter; KInt; KUns] [str "120000.00"; []; str "-3"; str "12"] [VStr (str "120000.00"); VKeep; VInt (-3); VUns 12]).
  { apply a_cons; [unfold field; change (str "120000.00") with [49; 50; 48; 48; 48; 48; 46; 48; 48]; change (str "-3") with [45; 51]; change (str "12") with [49; 50]; repeat (apply Forall_cons; [repeat split; discriminate|]); apply Forall_nil|apply g_text; [discriminate|cbn; lia]|].
    apply a_cons; [apply Forall_nil|apply g_empty|].
    apply a_cons; [unfold field; change (str "120000.00") with [49; 50; 48; 48; 48; 48; 46; 48; 48]; change (str "-3") with [45; 51]; change (str "12") with [49; 50]; repeat (apply Forall_cons; [repeat split; discriminate|]); apply Forall_nil|exact (g_neg _ [51] 3 (d_one 51 ltac:(lia)) ltac:(cbn; lia) ltac:(lia))|].
    apply a_cons; [unfold field; change (str "120000.00") with [49; 50; 48; 48; 48; 48; 46; 48; 48]; change (str "-3") with [45; 51]; change (str "12") with [49; 50]; repeat (apply Forall_cons; [repeat split; discriminate|]); apply Forall_nil|exact (g_uns _ [49; 50] 12 (d_more [49] 1 50 (d_one 49 ltac:(lia)) ltac:(lia)) ltac:(cbn; lia) ltac:(lia))|]. apply a_nil. }
  eexists. split; [exact A|]. apply C172_fields_partial; [cbn; intros [H|[H|[H|[H|[]]]]]; discriminate|exact A|right; eexists; reflexivity].
Qed.

(** A sentence without a checksum that has fewer fields than the format: their number is told *)
Theorem C172_fewer : forall isnum pre ks more xs vs, ~ In 37 pre -> all_give (fun t => isnum t = true) ks xs vs ->
  nmea_scanf isnum (text pre xs) (Some 0) (format pre (ks ++ more)) = Some (List.length ks, vs).
Proof.
  intros isnum pre ks more xs vs N A. unfold nmea_scanf, text, format. rewrite scan_pre by exact N. rewrite flat_map_app, <- app_assoc. fold (fmt ks). fold (txt xs).
  destruct more as [|k more]; cbn [flat_map app]; rewrite <- (app_nil_r (txt xs)).
  - rewrite (scan_fields isnum (Some 0) ks xs vs 42 [] [] A) by auto. cbn [scan Z.eqb Pos.eqb Nat.add]. rewrite app_nil_r. reflexivity.
  - rewrite (scan_fields isnum (Some 0) ks xs vs 44 _ [] A) by auto. cbn [scan Z.eqb Pos.eqb Nat.add]. rewrite app_nil_r. reflexivity.
Qed.
Print Assumptions C172_fewer.
Example C172_fewer_ex : nmea_scanf any_num (text (str "$GPX") [str "12"; []]) (Some 0) (format (str "$GPX") ([KUns; KText] ++ [KInt])) = Some (2%nat, [VUns 12; VKeep]).
Proof. vm_compute. reflexivity. Qed.

(** Behind fields that are right, one that does not even start as a number refuses all *)
Theorem C172_letters_partial : forall isnum pre ks k more xs vs c r ys, ~ In 37 pre -> all_give (fun t => isnum t = true) ks xs vs ->
  k = KInt \/ k = KUns -> field (c :: r) -> (List.length (c :: r) < 64)%nat -> ~ 48 <= c <= 57 -> ~ In c [43; 45; 32; 9; 10; 11; 12; 13] ->
  (more = [] <-> ys = []) ->
  exists l, nmea_scanf isnum (text pre (xs ++ (c :: r) :: ys)) (Some 0) (format pre (ks ++ k :: more)) = Some (0%nat, l).
Proof.
  intros isnum pre ks k more xs vs c r ys N A K F L D Nc M. unfold nmea_scanf, text, format. rewrite scan_pre by exact N. rewrite !flat_map_app, <- app_assoc. fold (fmt ks). fold (txt xs).
  cbn [flat_map app]. rewrite (scan_fields isnum (Some 0) ks xs vs 44 _ _ A) by (auto; right; eexists; reflexivity).
  assert (S1 : forall f s n, scan isnum (Some 0) (44 :: f) None (44 :: s) n = scan isnum (Some 0) f None s n) by reflexivity. rewrite S1. rewrite <- app_assoc.
  assert (Nx : exists d g, flat_map (fun k => 44 :: said k) more ++ [42] = d :: g /\ (d = 44 \/ d = 42) /\ (flat_map (fun x : list Z => 44 :: x) ys = [] \/ exists q, flat_map (fun x : list Z => 44 :: x) ys = d :: q)).
  { destruct more as [|k' more]; cbn [flat_map app]; [exists 42, []; rewrite (proj1 M eq_refl); auto|]. eexists _, _. split; [reflexivity|]. split; [auto|].
    destruct ys as [|y ys]; [discriminate (proj2 M eq_refl)|]. right. eexists. reflexivity. }
  destruct Nx as (d & g & -> & Dd & R). change (c :: r ++ flat_map (fun x : list Z => 44 :: x) ys) with ((c :: r) ++ flat_map (fun x : list Z => 44 :: x) ys). rewrite scan_token by assumption.
  assert (Rm : room k ((c :: r) ++ flat_map (fun x : list Z => 44 :: x) ys) = S (List.length ((c :: r) ++ flat_map (fun x : list Z => 44 :: x) ys))) by (destruct K as [-> | ->]; reflexivity).
  rewrite Rm. rewrite first_len by (rewrite app_length; lia).
  assert (B : forall w, store isnum (letter k) (c :: r) w = SBad).
  { intros w. pose proof (short (c :: r) ltac:(discriminate) L) as Sh. pose proof (number_none c r D Nc) as Nn.
    destruct K as [-> | ->]; unfold store; cbn [letter Z.eqb Pos.eqb orb]; unfold to_int, to_long, to_uint; rewrite Sh, Nn; reflexivity. }
  rewrite B. eexists. reflexivity.
Qed.
Print Assumptions C172_letters_partial.
Example C172_letters_ex : nmea_scanf any_num (text (str "$GPX") [str "12"; str "abc"; str "3"]) (Some 0) (format (str "$GPX") [KUns; KInt; KUns]) = Some (0%nat, [VUns 12]).
Proof. vm_compute. reflexivity. Qed.

(** Whatever the sentence, texts fit their 16 characters, and nothing behind the NUL is read *)
Theorem C172_inside : forall isnum pre ks s, ~ In 37 pre ->
  exists n l, nmea_scanf isnum s (Some 0) (format pre ks) = Some (n, l) /\ forall x, In (VStr x) l -> (List.length x < 16)%nat.
Proof.
  intros isnum pre ks s N. unfold nmea_scanf, format. destruct (scan isnum (Some 0) (pre ++ flat_map (fun k => 44 :: said k) ks ++ [42]) None s 0) as [[n l]|] eqn:E; [|exfalso; exact (scan_inside _ _ _ _ _ _ E)].
  exists n, l. split; [reflexivity|]. intros x I. pose proof (pre_fits _ _ _ _ N _ _ _ _ E) as F. rewrite Forall_forall in F. specialize (F _ I). cbn in F. lia.
Qed.
Print Assumptions C172_inside.
Example C172_inside_ex : nmea_scanf any_num (str "$GPX,12345678901234567890,5") (Some 0) (format (str "$GPX") [KText; KUns]) = Some (2%nat, [VStr (str "123456789012345"); VUns 5]).
Proof. vm_compute. reflexivity. Qed.

(** A number followed by anything is taken for a number, and one of 64 digits for 0 *)
Theorem C172_junk_refuted : exists s, nmea_scanf any_num (str "$GPX," ++ s) (Some 0) (format (str "$GPX") [KUns]) = Some (1%nat, [VUns 12]) /\ forall v, ~ decimal s v.
Proof.
  exists (str "12x9"). split; [vm_compute; reflexivity|]. intros v D. destruct (decimal_fold _ _ D) as (F & _). rewrite Forall_forall in F. specialize (F 120 ltac:(cbn; auto)). cbn in F. lia.
Qed.
Print Assumptions C172_junk_refuted.
Theorem C172_digits_refuted : exists s v, decimal s v /\ v > 0 /\ nmea_scanf any_num (str "$GPX," ++ s) (Some 0) (format (str "$GPX") [KUns]) = Some (1%nat, [VUns 0]).
Proof.
  assert (D : forall n, decimal (repeat 48 n ++ [49]) 1 ).
  { intros n. destruct n as [|n]; [exact (d_one 49 ltac:(lia))|].
    assert (Zr : forall n, decimal (repeat 48 (S n)) 0) by (intros m; induction m as [|m IH]; [exact (d_one 48 ltac:(lia))|]; replace (repeat 48 (S (S m))) with (repeat 48 (S m) ++ [48]) by (clear; induction m as [|m IH]; [reflexivity|]; cbn [repeat app] in *; rewrite IH; reflexivity); exact (d_more _ 0 48 IH ltac:(lia))).
    exact (d_more _ 0 49 (Zr n) ltac:(lia)). }
  exists (repeat 48 63 ++ [49]), 1. split; [apply D|]. split; [lia|vm_compute; reflexivity].
Qed.
Print Assumptions C172_digits_refuted.
