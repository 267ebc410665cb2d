From Coq Require Import String.
From Verif Require Import Base Regex HttpInfo HttpInfoSpec.

(** ** Reading *)
Lemma blank_iff m : blank (rev m) = true <-> ends_blank m.
Proof.
  split.
  - intros H. unfold ends_blank.
    assert (E : m = rev (rev m)) by (rewrite rev_involutive; reflexivity).
    destruct (rev m) as [|a [|b r]]; [discriminate| |].
    + destruct a as [|p|p]; try discriminate; repeat (destruct p as [p|p|]; try discriminate).
    + destruct (Z.eq_dec a 10) as [->|Na].
      2:{ exfalso. destruct a as [|p|p]; try discriminate; repeat (destruct p as [p|p|]; try discriminate; try lia). }
      destruct (Z.eq_dec b 10) as [->|Nb].
      * exists (rev r). left. rewrite E. cbn [rev]. rewrite <- app_assoc. reflexivity.
      * destruct (Z.eq_dec b 13) as [->|Nb'].
        2:{ exfalso. destruct b as [|p|p]; try discriminate; repeat (destruct p as [p|p|]; try discriminate; try lia). }
        cbn in H. destruct r as [|c [|d r]]; [discriminate| |].
        -- exfalso. destruct c as [|p|p]; try discriminate; repeat (destruct p as [p|p|]; try discriminate).
        -- destruct (Z.eq_dec c 10) as [->|Nc].
           2:{ exfalso. destruct c as [|p|p]; try discriminate; repeat (destruct p as [p|p|]; try discriminate; try lia). }
           destruct (Z.eq_dec d 13) as [->|Nd].
           2:{ exfalso. destruct d as [|p|p]; try discriminate; repeat (destruct p as [p|p|]; try discriminate; try lia). }
           exists (rev r). right. rewrite E. cbn [rev]. rewrite <- !app_assoc. reflexivity.
  - intros [p [-> | ->]]; rewrite rev_app_distr; reflexivity.
Qed.

Lemma rd_complete rest fin : forall m2 m1, complete (m1 ++ m2) -> Z.of_nat (List.length (m1 ++ m2)) < REQ_SIZE -> m2 <> [] ->
  rd_req (Z.of_nat (List.length m1)) (rev m1) (m2 ++ rest) fin = (m1 ++ m2, 1).
Proof.
  induction m2 as [|x m2 IH]; intros m1 C L N; [congruence|].
  cbn [rd_req app].
  assert (Hc : Z.of_nat (List.length m1) <? REQ_SIZE - 1 = true).
  { apply Z.ltb_lt. rewrite app_length in L. cbn [List.length] in L. lia. }
  rewrite Hc. change (x :: rev m1) with (rev [x] ++ rev m1). rewrite <- rev_app_distr.
  destruct m2 as [|y m2].
  - destruct C as (B & _). apply blank_iff in B. rewrite B. rewrite rev_involutive. reflexivity.
  - destruct (blank (rev (m1 ++ [x]))) eqn:B.
    + exfalso. apply blank_iff in B. destruct C as (_ & C & _).
      refine (C (m1 ++ [x]) (y :: m2) _ _ B); [rewrite <- app_assoc; reflexivity|discriminate].
    + replace (Z.of_nat (List.length m1) + 1) with (Z.of_nat (List.length (m1 ++ [x]))) by (rewrite app_length; cbn [List.length]; lia).
      rewrite (IH (m1 ++ [x])); rewrite <- ?app_assoc; cbn [app]; auto. discriminate.
Qed.

Lemma cstr_full : forall l room, ~ In 0 l -> Z.of_nat (List.length l) < room -> cstr room l = Some l.
Proof.
  induction l as [|x l IH]; intros room N L; cbn [cstr List.length] in *.
  - destruct (0 <? room) eqn:E; [reflexivity|apply Z.ltb_ge in E; lia].
  - destruct (x =? 0) eqn:E; [exfalso; apply N; left; lia|].
    rewrite IH; [reflexivity|intros I; apply N; right; exact I|lia].
Qed.
Lemma cstr_some : forall l room, Z.of_nat (List.length l) < room -> cstr room l <> None.
Proof.
  induction l as [|x l IH]; intros room L; cbn [cstr List.length] in *.
  - destruct (0 <? room) eqn:E; [discriminate|apply Z.ltb_ge in E; lia].
  - destruct (x =? 0); [discriminate|]. specialize (IH (room - 1) ltac:(lia)). destruct (cstr (room - 1) l); [discriminate|congruence].
Qed.
Lemma rd_len fin : forall inp c rl l r, rd_req c rl inp fin = (l, r) -> (List.length l <= List.length rl + List.length inp)%nat.
Proof.
  induction inp as [|x inp IH]; intros c rl l r E; cbn [rd_req] in E.
  - injection E as <- <-. cbn [rev]; rewrite ?app_length, ?rev_length. lia.
  - destruct (c <? REQ_SIZE - 1).
    + destruct (blank (x :: rl)).
      * injection E as <- <-. cbn [rev]; rewrite ?app_length, ?rev_length. cbn [List.length]. lia.
      * apply IH in E. cbn [List.length] in *. lia.
    + injection E as <- <-. cbn [rev]; rewrite ?app_length, ?rev_length. cbn [List.length]. lia.
Qed.
Lemma rd_max fin : forall inp c rl l r, c = Z.of_nat (List.length rl) -> c < REQ_SIZE ->
  rd_req c rl inp fin = (l, r) -> Z.of_nat (List.length l) <= REQ_SIZE.
Proof.
  induction inp as [|x inp IH]; intros c rl l r C L E; cbn [rd_req] in E.
  - injection E as <- <-. cbn [rev]; rewrite ?app_length, ?rev_length. lia.
  - destruct (c <? REQ_SIZE - 1) eqn:H.
    + destruct (blank (x :: rl)).
      * injection E as <- <-. cbn [rev]; rewrite ?app_length, ?rev_length. cbn [List.length]. lia.
      * refine (IH _ _ _ _ _ _ E); cbn [List.length]; lia.
    + injection E as <- <-. cbn [rev]; rewrite ?app_length, ?rev_length. cbn [List.length]. lia.
Qed.

(** ** The words *)
Lemma space_iff x : space x = true <-> ws x.
Proof. unfold space, ws. lia. Qed.
Lemma skip_word w s : is_word w -> skip_ws (w ++ s) = w ++ s.
Proof.
  intros [N F]. destruct w as [|x w]; [congruence|]. cbn. inversion F; subst.
  destruct (space x) eqn:E; [apply space_iff in E; tauto|reflexivity].
Qed.
Lemma word_word x : ws x -> forall w n s, Forall (fun x => ~ ws x /\ x <> 0) w -> (List.length w <= n)%nat ->
  word n (w ++ x :: s) = (w, x :: s).
Proof.
  intros X. induction w as [|y w IH]; intros n s F L.
  - destruct n; cbn; [reflexivity|]. apply space_iff in X. rewrite X. reflexivity.
  - cbn [List.length] in L. destruct n as [|n]; [lia|]. inversion F; subst. cbn.
    destruct (space y) eqn:E; [apply space_iff in E; tauto|]. rewrite IH; auto; lia.
Qed.
Lemma conv_word x w n s : ws x -> is_word w -> (List.length w <= n)%nat -> conv n (w ++ x :: s) = Some (w, x :: s).
Proof.
  intros X W L. unfold conv. rewrite skip_word by exact W. destruct W as [N F].
  rewrite (word_word x X) by auto. destruct w; [congruence|reflexivity].
Qed.
Lemma conv_sp n s : conv n (32 :: s) = conv n s.
Proof. reflexivity. Qed.
Lemma request_line m f v s : is_word m -> is_word f -> is_word v ->
  (List.length m <= 10)%nat -> (List.length f <= 250)%nat -> (List.length v <= 10)%nat ->
  request (m ++ 32 :: f ++ 32 :: v ++ 13 :: s) = Some (m, f, Some v).
Proof.
  intros M F V Lm Lf Lv. unfold request.
  rewrite (conv_word 32) by (auto; right; reflexivity). rewrite conv_sp.
  rewrite (conv_word 32) by (auto; right; reflexivity). rewrite conv_sp.
  rewrite (conv_word 13) by (auto; left; lia). reflexivity.
Qed.

(** ** The pages *)
Lemma same_iff : forall a b, same a b = true <-> a = b.
Proof.
  induction a as [|x a IH]; intros [|y b]; cbn; split; intros H; try congruence; try reflexivity.
  - apply andb_prop in H. destruct H as [H1 H2]. apply IH in H2. apply Z.eqb_eq in H1. congruence.
  - injection H as -> ->. rewrite Z.eqb_refl. apply IH. reflexivity.
Qed.
Lemma same_refl a : same a a = true.
Proof. apply same_iff. reflexivity. Qed.

Definition page_of (k : kind) : page := match k with Picture n => PBin n | Style => PTxt 0 | Tab n => PTab n end.

Lemma match_slash n f : In f (map fst pages) -> match_req (47 :: n) f = same n f.
Proof.
  intros I. unfold match_req. destruct (same (47 :: n) f) eqn:E; [|reflexivity].
  apply same_iff in E. subst f. exfalso. cbn in I.
  repeat (destruct I as [I|I]; [discriminate|]). destruct I.
Qed.
Lemma page_known n k : In (n, k) pages -> get_page (47 :: n) = page_of k.
Proof.
  intros I. cbn in I. repeat (destruct I as [I|I]; [injection I as <- <-; vm_compute; reflexivity|]). destruct I.
Qed.
Lemma index_none i n : forall l, (forall f, In f l -> In f (map fst pages)) -> ~ In n l -> index_of i (47 :: n) l = None.
Proof.
  intros l. revert i. induction l as [|f l IH]; intros i P N; cbn [index_of]; [reflexivity|].
  rewrite match_slash by (apply P; left; reflexivity).
  destruct (same n f) eqn:E; [apply same_iff in E; subst; exfalso; apply N; left; reflexivity|].
  apply IH; [intros; apply P; right; auto|intros ?; apply N; right; auto].
Qed.
Lemma page_unknown n : n <> [] -> ~ In n (map fst pages) -> get_page (47 :: n) = P404.
Proof.
  intros N U. unfold get_page.
  assert (B : forall f, In f bin_files -> In f (map fst pages)) by (intros f I; cbn in *; tauto).
  assert (T : forall f, In f txt_files -> In f (map fst pages)) by (intros f I; cbn in *; tauto).
  assert (A : forall f, In f tab_files -> In f (map fst pages)) by (intros f I; cbn in *; tauto).
  rewrite index_none by (auto; intros ?; apply U; auto).
  rewrite index_none by (auto; intros ?; apply U; auto).
  destruct n as [|x n]; [congruence|].
  rewrite index_none by (auto; intros ?; apply U; auto). reflexivity.
Qed.

(** ** The reply *)
Lemma digits_ok : forall f n acc, 0 <= n < 10 ^ Z.of_nat f -> Forall (fun d => 48 <= d <= 57) acc ->
  Forall (fun d => 48 <= d <= 57) (digits f n acc) /\
  forall a, fold_left (fun a d => 10 * a + (d - 48)) acc a = fold_left (fun a d => 10 * a + (d - 48)) acc a /\
  exists pre, digits f n acc = pre ++ acc /\ number pre = n.
Proof.
  induction f as [|f IH]; intros n acc L F.
  - cbn [digits]. split; [exact F|]. intros a. split; [reflexivity|]. exists []. split; [reflexivity|].
    unfold number. cbn [fold_left]. change (10 ^ Z.of_nat 0) with 1 in L. lia.
  - cbn [digits].
    assert (F' : Forall (fun d => 48 <= d <= 57) ((48 + n mod 10) :: acc)) by (constructor; [lia|exact F]).
    destruct (n <? 10) eqn:E.
    + split; [exact F'|]. intros a. split; [reflexivity|]. exists [48 + n mod 10]. split; [reflexivity|].
      unfold number. cbn [fold_left]. lia.
    + assert (L' : 0 <= n / 10 < 10 ^ Z.of_nat f).
      { replace (Z.of_nat (S f)) with (Z.succ (Z.of_nat f)) in L by lia. rewrite Z.pow_succ_r in L by lia.
        set (q := 10 ^ Z.of_nat f) in *. clearbody q. lia. }
      destruct (IH (n / 10) ((48 + n mod 10) :: acc) L' F') as [H1 H2]. split; [exact H1|].
      intros a. split; [reflexivity|]. destruct (H2 a) as (_ & pre & E1 & E2).
      exists (pre ++ [48 + n mod 10]). split; [rewrite E1, <- app_assoc; reflexivity|].
      unfold number in *. rewrite fold_left_app, E2. cbn [fold_left]. lia.
Qed.

Lemma line_str s : (forallb (fun x => negb (x =? 13) && negb (x =? 10)) s && negb (same s []))%bool = true -> is_line (s ++ [13; 10]).
Proof.
  intros H. apply andb_prop in H. destruct H as [H H3]. rewrite forallb_forall in H. exists s. split; [reflexivity|]. repeat split.
  - intros I. specialize (H _ I). discriminate.
  - intros I. specialize (H _ I). discriminate.
  - intros ->. discriminate.
Qed.
Lemma line_digits ds : Forall (fun d => 48 <= d <= 57) ds -> is_line (str "Content-length: " ++ ds ++ [13; 10]).
Proof.
  intros F. rewrite app_assoc. apply line_str. apply andb_true_intro. split; [|reflexivity].
  rewrite forallb_app. apply andb_true_intro. split; [reflexivity|].
  apply forallb_forall. rewrite Forall_forall in F. intros x I. specialize (F x I). lia.
Qed.

Definition status_of (code : Z) : list Z := if code =? 400 then bad_request else if code =? 404 then not_found else ok.
Lemma header_reply e code html b : is_line (e_date e) -> 0 < Z.of_nat (List.length b) < 2 ^ 31 ->
  is_reply (status_of code) b (header e code html (Z.of_nat (List.length b)) ++ b).
Proof.
  intros D L. set (n := Z.of_nat (List.length b)) in *.
  destruct (digits_ok 10 n [] ltac:(change (10 ^ Z.of_nat 10) with 10000000000; change (2 ^ 31) with 2147483648 in L; lia) (Forall_nil _)) as [F H].
  destruct (H 0) as (_ & pre & E1 & E2). rewrite app_nil_r in E1.
  exists ([e_date e; str "Server: OLSRD httpinfo plugin HTTP/1.1" ++ [13; 10]; str "Connection: closed" ++ [13; 10];
           (if html then str "Content-type: text/html" else str "Content-type: text/plain") ++ [13; 10];
           str "Content-length: " ++ digits 10 n [] ++ [13; 10]; str "Cache-Control: no-cache" ++ [13; 10]]
          ++ (if html then [] else [str "Accept-Ranges: bytes" ++ [13; 10]])), (digits 10 n []).
  split; [|split; [|split; [|split]]].
  - unfold header. replace (0 <? n) with true by lia. unfold status_line, status_of, crlf.
    replace (if code =? 400 then str "HTTP/1.1 400 Bad Request" else if code =? 404 then str "HTTP/1.1 404 Not Found" else str "HTTP/1.1 200 OK")
      with (if code =? 400 then bad_request else if code =? 404 then not_found else ok) by reflexivity.
    set (sl := if code =? 400 then _ else _). generalize (digits 10 n []). intros ds. clearbody sl.
    rewrite concat_app. cbn [concat]. destruct html; cbn [concat]; rewrite <- ?app_assoc, ?app_nil_r; cbn [app]; rewrite <- ?app_assoc; reflexivity.
  - apply Forall_app. split.
    + repeat constructor; try (apply line_str; vm_compute; reflexivity); [exact D| |apply line_digits; exact F].
      destruct html; apply line_str; vm_compute; reflexivity.
    + destruct html; repeat constructor. apply line_str; vm_compute; reflexivity.
  - apply in_or_app. left. cbn [In]. tauto.
  - exact F.
  - rewrite E1. exact E2.
Qed.

(** ** Requests *)
Definition req (m f v rest : list Z) : list Z := m ++ 32 :: f ++ 32 :: v ++ 13 :: rest.
Lemma serve_req e m f v rest more fin : is_word m -> is_word f -> is_word v ->
  (List.length m <= 10)%nat -> (List.length f <= 250)%nat -> (List.length v <= 10)%nat ->
  complete (req m f v rest) -> Z.of_nat (List.length (req m f v rest)) < 10240 ->
  serve e true (req m f v rest ++ more) fin = Some (Some (answer e m f)).
Proof.
  intros M F V Lm Lf Lv C L. unfold serve. cbn [negb].
  assert (N : req m f v rest <> []) by (unfold req; destruct M as [M _]; destruct m; [congruence|discriminate]).
  pose proof (rd_complete more fin (req m f v rest) [] C L N) as R. cbn [app List.length rev] in R.
  change (Z.of_nat 0) with 0 in R. rewrite R. cbn beta iota. change (1 <? 0) with false. cbn iota.
  rewrite cstr_full by (try exact L; apply C). unfold req. rewrite request_line by auto. reflexivity.
Qed.
Lemma serve_total e a inp fin : Z.of_nat (List.length inp) < 10240 -> e_debug e = false -> serve e a inp fin <> None.
Proof.
  intros L D. unfold serve. destruct a; cbn [negb]; [|discriminate].
  destruct (rd_req 0 [] inp fin) as [l r] eqn:E. apply rd_len in E. cbn [List.length] in E.
  destruct (r <? 0); [discriminate|].
  pose proof (cstr_some l REQ_SIZE ltac:(unfold REQ_SIZE; lia)) as N.
  destruct (cstr REQ_SIZE l) as [s|]; [|congruence].
  destruct (request s) as [[[m f] [v|]]|]; rewrite ?D; discriminate.
Qed.
