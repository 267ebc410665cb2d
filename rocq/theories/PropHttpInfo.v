(** The httpinfo plugin: the page for a request, and how it is sent. *)
From Coq Require Import String.
From Verif Require Import Base Regex HttpInfo HttpInfoSpec HttpInfoProofs HttpSendSpec HttpSendProofs.

(** A GET for "/" and a name is answered with the page of that name, any other name with 404;
    missing: names without "/", requests without a version, long ones, and bodies of length 0 *)
Theorem C166_get_partial : forall e name ver rest more fin,
  let m := str "GET" ++ 32 :: (47 :: name) ++ 32 :: ver ++ 13 :: rest in
  complete m -> Z.of_nat (List.length m) < 10240 ->
  Forall (fun x => ~ ws x /\ x <> 0) name -> is_word ver -> (List.length name <= 249)%nat -> (List.length ver <= 10)%nat ->
  is_line (e_date e) -> (forall p, 0 < Z.of_nat (List.length (e_page e p)) < 2 ^ 31) ->
  exists r, serve e true (m ++ more) fin = Some (Some r) /\
    (forall k, In (name, k) pages ->
       is_reply ok (e_page e (match k with Picture n => PBin n | Style => PTxt 0 | Tab n => PTab n end)) r) /\
    (name = [] -> is_reply ok (e_page e (PTab 0)) r) /\
    (name <> [] -> ~ In name (map fst pages) -> exists b, is_reply not_found b r /\
       b = str "<html><h1>404 - ERROR, no such file</h1><hr>This server does not support file requests!<br><br><i>OLSRD httpinfo plugin</i></html>").
Proof.
  intros e name ver rest more fin m C L Fn V Ln Lv D P.
  exists (answer e (str "GET") (47 :: name)). split; [|split; [|split]].
  - apply serve_req; auto; [split; [discriminate|change (str "GET") with [71; 69; 84]; repeat (apply Forall_cons; [unfold ws; lia|]); apply Forall_nil]| |cbn; lia|cbn [List.length]; lia].
    split; [discriminate|]. constructor; [unfold ws; lia|exact Fn].
  - intros k I. unfold answer. replace (same (str "GET") (str "POST")) with false by reflexivity.
    rewrite same_refl. cbn iota zeta. rewrite (page_known _ _ I).
    destruct k; cbn [page_of body_of]; exact (header_reply e 200 _ _ D (P _)).
  - intros ->. exact (header_reply e 200 true _ D (P _)).
  - intros N U. eexists. split; [|reflexivity]. unfold answer. replace (same (str "GET") (str "POST")) with false by reflexivity.
    rewrite same_refl. cbn iota zeta. rewrite (page_unknown _ N U). cbn [body_of].
    refine (header_reply e 404 true _ D _). vm_compute. split; reflexivity.
Qed.
Print Assumptions C166_get_partial.
Definition ex_env : env := mkE (fun p => match p with PTab 1 => str "routes" | _ => str "other" end) (str "Date: today" ++ [13; 10]) false.
Definition ex_req : list Z := str "GET /routes HTTP/1.0" ++ [13; 10; 13; 10].
Example C166_get_ex : exists r, serve ex_env true ex_req 0 = Some (Some r) /\ firstn 15 r = str "HTTP/1.1 200 OK" /\ skipn (List.length r - 6) r = str "routes".
Proof. eexists. split; [vm_compute; reflexivity|]. split; vm_compute; reflexivity. Qed.

(** A POST, or any other method, is answered with 400; a peer that is not allowed gets nothing *)
Theorem C166_method_partial : forall e meth f ver rest more fin,
  let m := meth ++ 32 :: f ++ 32 :: ver ++ 13 :: rest in
  complete m -> Z.of_nat (List.length m) < 10240 -> is_word meth -> is_word f -> is_word ver ->
  (List.length meth <= 10)%nat -> (List.length f <= 250)%nat -> (List.length ver <= 10)%nat ->
  is_line (e_date e) -> meth <> str "GET" ->
  (exists r b, serve e true (m ++ more) fin = Some (Some r) /\ is_reply bad_request b r) /\
  serve e false (m ++ more) fin = Some None.
Proof.
  intros e meth f ver rest more fin m C L M F V Lm Lf Lv D N. split; [|reflexivity].
  change m with (req meth f ver rest). rewrite (serve_req e meth f ver rest more fin M F V Lm Lf Lv C L). unfold answer.
  destruct (same meth (str "POST")).
  - eexists _, _. split; [reflexivity|]. refine (header_reply e 400 true _ D _). vm_compute. split; reflexivity.
  - destruct (same meth (str "GET")) eqn:E; [apply same_iff in E; congruence|].
    eexists _, _. split; [reflexivity|]. refine (header_reply e 400 true _ D _). vm_compute. split; reflexivity.
Qed.
Print Assumptions C166_method_partial.
Example C166_method_ex : exists r, serve ex_env true (str "POST /routes HTTP/1.0" ++ [13; 10; 13; 10]) 0 = Some (Some r) /\ firstn 16 r = str "HTTP/1.1 400 Bad".
Proof. eexists. split; vm_compute; reflexivity. Qed.

(** No request below 10240 bytes makes the plugin read beyond its buffers, without debug output;
    of a longer one 10240 bytes are read *)
Theorem C166_safe_partial : forall e a inp fin,
  (Z.of_nat (List.length inp) < 10240 -> e_debug e = false -> serve e a inp fin <> None) /\
  Z.of_nat (List.length (fst (rd_req 0 [] inp fin))) <= 10240.
Proof.
  intros e a inp fin. split; [apply serve_total|].
  destruct (rd_req 0 [] inp fin) as [l r] eqn:E. refine (rd_max fin inp 0 [] l r eq_refl _ E). reflexivity.
Qed.
Print Assumptions C166_safe_partial.
Example C166_safe_ex : serve ex_env true (str "GET") 0 = Some None.
Proof. vm_compute. reflexivity. Qed.

(** 10240 bytes without an empty line leave no end of the string in the buffer *)
Theorem C166_long_refuted : exists inp fin, serve ex_env true inp fin = None.
Proof. exists (repeat 65 (Z.to_nat 10240)), 0. vm_compute. reflexivity. Qed.
Print Assumptions C166_long_refuted.
(** a request without a version makes the debug output print an array that was not set *)
Theorem C166_version_refuted : exists e inp fin, complete inp /\ serve e true inp fin = None.
Proof.
  exists (mkE (fun _ => [1]) [] true), (str "GET /" ++ [10; 10]), 0. split; [|vm_compute; reflexivity].
  split; [exists (str "GET /"); left; reflexivity|]. split.
  - intros p q E N [p' B].
    assert (I : In 10 (removelast p)).
    { destruct B as [-> | ->]; [replace (p' ++ [10; 10]) with ((p' ++ [10]) ++ [10]) by (rewrite <- app_assoc; reflexivity)
                              |replace (p' ++ [13; 10; 13; 10]) with ((p' ++ [13; 10; 13]) ++ [10]) by (rewrite <- app_assoc; reflexivity)];
      rewrite removelast_last, in_app_iff; right; cbn; tauto. }
    destruct (@exists_last _ q N) as (q' & y & ->). rewrite app_assoc in E.
    change (str "GET /" ++ [10; 10]) with ((str "GET /" ++ [10]) ++ [10]) in E. apply app_inj_tail in E. destruct E as [E _].
    destruct (@exists_last _ p) as (p1 & z & ->); [intros ->; destruct I|]. rewrite removelast_last in I.
    rewrite <- app_assoc in E. destruct (@exists_last _ ([z] ++ q')) as (w & u & Eu); [discriminate|].
    rewrite Eu, app_assoc in E. apply app_inj_tail in E. destruct E as [E _].
    assert (J : In 10 (str "GET /")) by (rewrite E; apply in_or_app; left; exact I).
    cbn in J. repeat (destruct J as [J|J]; [discriminate|]). destruct J.
  - intros J. cbn in J. repeat (destruct J as [J|J]; [discriminate|]). destruct J.
Qed.
Print Assumptions C166_version_refuted.
(** "xroutes" is answered with the page "routes", though there is no such name *)
Theorem C166_name_refuted : exists f r, ~ In f (map fst pages) /\ ~ In 47 f /\
  serve ex_env true (str "GET " ++ f ++ str " HTTP/1.0" ++ [13; 10; 13; 10]) 0 = Some (Some r) /\ firstn 15 r = ok.
Proof.
  exists (str "xroutes"). eexists. split; [|split; [|split; [vm_compute; reflexivity|vm_compute; reflexivity]]].
  - intros J. cbn in J. repeat (destruct J as [J|J]; [discriminate|]). destruct J.
  - intros J. cbn in J. repeat (destruct J as [J|J]; [discriminate|]). destruct J.
Qed.
Print Assumptions C166_name_refuted.
(** a peer that pauses within its request (recv gives up after 200 us) gets no answer *)
Theorem C166_pause_refuted : exists a b, complete (a ++ b) /\ serve ex_env true a (-1) = Some None /\
  exists r, serve ex_env true (a ++ b) (-1) = Some (Some r).
Proof.
  exists (str "GET / HTTP/1.0" ++ [10]), [10].
  split; [|split; [vm_compute; reflexivity|eexists; vm_compute; reflexivity]].
  split; [exists (str "GET / HTTP/1.0"); left; reflexivity|]. split.
  - intros p q E N [p' B].
    assert (I : In 10 (removelast p)).
    { destruct B as [-> | ->]; [replace (p' ++ [10; 10]) with ((p' ++ [10]) ++ [10]) by (rewrite <- app_assoc; reflexivity)
                              |replace (p' ++ [13; 10; 13; 10]) with ((p' ++ [13; 10; 13]) ++ [10]) by (rewrite <- app_assoc; reflexivity)];
      rewrite removelast_last, in_app_iff; right; cbn; tauto. }
    destruct (@exists_last _ q N) as (q' & y & ->). rewrite app_assoc in E.
    apply app_inj_tail in E. destruct E as [E _].
    destruct (@exists_last _ p) as (p1 & z & ->); [intros ->; destruct I|]. rewrite removelast_last in I.
    rewrite <- app_assoc in E. destruct (@exists_last _ ([z] ++ q')) as (w & u & Eu); [discriminate|].
    rewrite Eu, app_assoc in E. apply app_inj_tail in E. destruct E as [E _].
    assert (J : In 10 (str "GET / HTTP/1.0")) by (rewrite E; apply in_or_app; left; exact I).
    cbn in J. repeat (destruct J as [J|J]; [discriminate|]). destruct J.
  - intros J. cbn in J. repeat (destruct J as [J|J]; [discriminate|]). destruct J.
Qed.
Print Assumptions C166_pause_refuted.

(** In every run, what went to a socket is a start of its one reply; a socket is closed only
    with all of it sent or after a failed write, and then stays silent; never more than three
    replies wait, and the timer runs while one does.  A reply is not empty *)
Theorem C167_sent_partial : forall is h t,
  (forall b, In (IReq (Some b)) is -> b <> []) -> hrun hst0 is = (h, t) ->
  (forall s b, In (Queued s b) t -> starts (bytes_to s t) b /\
     (In (Closed s) t -> bytes_to s t = b \/ In (Failed s) t)) /\
  (forall s b b', In (Queued s b) t -> In (Queued s b') t -> b = b') /\
  quiet_after_close t /\
  (List.length (h_slots h) <= 3)%nat /\ (h_timer h = true <-> h_slots h <> []).
Proof.
  intros is h t G E.
  assert (F : Forall good is).
  { apply Forall_forall. intros [[b|]|] J; cbn; auto. }
  pose proof (inv_run is hst0 [] h t inv0 F E) as I. cbn [app] in I.
  pose proof (tm_run is hst0 ltac:(split; cbn; [lia|split; congruence])) as T. rewrite E in T. cbn [fst] in T.
  assert (A : forall s b, In (Queued s b) t -> starts (bytes_to s t) b).
  { intros s b J. destruct (i_ended _ _ _ I s b J) as [(k & K1 & <- & <-)|(_ & K & _)]; [|exact K].
    destruct (i_open _ _ _ I k K1) as (_ & _ & -> & _). exists (skipn (sl_done k) (sl_buf k)). symmetry. apply firstn_skipn. }
  split; [|split; [|split; [exact (i_quiet _ _ _ I)|exact T]]].
  - intros s b J. split; [exact (A s b J)|]. intros C.
    destruct (i_ended _ _ _ I s b J) as [(k & K1 & <- & <-)|(_ & _ & K)]; [|exact K].
    destruct (i_open _ _ _ I k K1) as (_ & K2 & _). tauto.
  - exact (i_one _ _ _ I).
Qed.
Print Assumptions C167_sent_partial.
Definition ex_all (n : Z) : input := ITimer 1 (fun _ => true) (fun _ => n).
Definition ex_run : list input := [IReq (Some [1; 2; 3]); IReq None; IReq (Some [4; 5]); ex_all 2; ex_all 2; ex_all 2].
Example C167_sent_ex : snd (hrun hst0 ex_run) =
  [Queued 0 [1; 2; 3]; Closed 1; Queued 2 [4; 5]; Sent 0 [1; 2]; Sent 2 [4; 5]; Closed 2; Sent 0 [3]; Closed 0].
Proof. vm_compute. reflexivity. Qed.

(** When all sockets take bytes, as many timer events as there are bytes bring every reply
    whose writes did not fail to its peer completely *)
Theorem C167_delivered_partial : forall is js h t,
  (forall b, In (IReq (Some b)) is -> b <> []) -> Forall all_take js ->
  (all_bytes (snd (hrun hst0 is)) <= List.length js)%nat -> hrun hst0 (is ++ js) = (h, t) ->
  h_slots h = [] /\ forall s b, In (Queued s b) t -> In (Closed s) t /\ (bytes_to s t = b \/ In (Failed s) t).
Proof.
  intros is js h t G A L E.
  assert (F : Forall good is).
  { apply Forall_forall. intros [[b|]|] J; cbn; auto. }
  assert (F2 : Forall good js).
  { eapply Forall_impl; [|exact A]. intros [b|] J; [destruct J|exact Logic.I]. }
  assert (F3 : Forall good (is ++ js)) by (apply Forall_app; split; assumption).
  pose proof (inv_run _ hst0 [] h t inv0 F3 E) as I. cbn [app] in I.
  pose proof (left_bound is hst0 [] ltac:(cbn; lia)) as B. cbn [app] in B.
  pose proof (tm_run is hst0 ltac:(split; cbn; [lia|split; congruence])) as T.
  rewrite hrun_app in E. destruct (hrun hst0 is) as [h1 t1] eqn:E1. cbn [fst snd] in *.
  pose proof (inv_run _ hst0 [] h1 t1 inv0 F E1) as I1. cbn [app] in I1.
  pose proof (run_empties js h1 t1 I1 T A ltac:(lia)) as Em.
  destruct (hrun h1 js) as [h2 t2]. injection E as -> <-. cbn [fst] in Em. split; [exact Em|].
  intros s b J. destruct (i_ended _ _ _ I s b J) as [(k & K1 & _)|(K1 & _ & K2)]; [rewrite Em in K1; destruct K1|]. auto.
Qed.
Print Assumptions C167_delivered_partial.
Example C167_delivered_ex : h_slots (fst (hrun hst0 ([IReq (Some [1; 2; 3]); IReq (Some [4])] ++ repeat (ex_all 1) 4))) = [].
Proof. vm_compute. reflexivity. Qed.

(** The timer event that ends one reply passes over the next, though its socket takes bytes *)
Theorem C167_passed_refuted : exists is n s b, let t := snd (hrun hst0 (is ++ [ex_all n])) in
  0 < n /\ In (Queued s b) t /\ ~ In (Closed s) t /\ bytes_to s t = [] /\ In (Closed 0) t.
Proof.
  exists [IReq (Some [1]); IReq (Some [2; 3])], 5, 1, [2; 3]. vm_compute. repeat split; auto.
  intros J. repeat (destruct J as [J|J]; [discriminate|]). destruct J.
Qed.
Print Assumptions C167_passed_refuted.
(** A fourth request is not taken while three replies wait *)
Theorem C167_fourth_refuted : exists is b, hrun hst0 (is ++ [IReq (Some b)]) = hrun hst0 is /\ b <> [].
Proof. exists [IReq (Some [1]); IReq (Some [2]); IReq (Some [3])], [4]. split; [vm_compute; reflexivity|discriminate]. Qed.
Print Assumptions C167_fourth_refuted.
