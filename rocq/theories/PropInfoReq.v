(** Properties C107, C108: requests to the information plugins *)
From Coq Require Import String.
From Verif Require Import Base Bytes Regex InfoReq InfoReqSpec InfoReqProofs.

(** who is admitted *)
Lemma denied_v4 c peer : i_v6 c = false -> (host_denied c peer = false <-> may_ask c peer).
Proof.
  intros V. unfold host_denied, may_ask, ADDR_ANY. rewrite V. destruct (i_accept c =? 0) eqn:A, (peer =? i_accept c) eqn:B, (i_local c) eqn:L, (peer =? LOOPBACK4) eqn:M; cbn [negb andb orb];
    split; intros H; try discriminate; try reflexivity; try (left; lia); try (right; left; lia); try (right; right; split; [reflexivity|lia]); destruct H as [H|[H|(H & H')]]; try discriminate; lia.
Qed.
Lemma admitted c peer : (i_v6 c = false \/ i_accept c = 0) -> may_ask c peer -> host_denied c peer = false.
Proof.
  intros [V|A] M; [now apply denied_v4|]. unfold host_denied, ADDR_ANY. rewrite A. destruct (i_v6 c); reflexivity.
Qed.

(** ** C107 *)
(** A request from a host that may ask, which is a path or an HTTP GET of a path in one
    line, is answered with the union of the sections that the path names; with headers if
    it is an HTTP request, unless the path starts with http or plain.  If a name is not
    known the answer is not-found; an HTTP request for no names asks for everything. *)
Theorem C107_request_partial c peer d line junk l : (i_v6 c = false \/ i_accept c = 0) -> may_ask c peer -> received d line -> BUFSIZE <= blen (d ++ junk) ->
  (plain_line line l -> ipc_action c peer d junk = Some (meaning false (names l))) /\
  (http_line line l -> ipc_action c peer d junk = Some (meaning true (names l))).
Proof.
  intros V M R J. pose proof (admitted c peer V M) as H. split; intros L; [now apply (plain_ok c peer d line)|now apply (http_ok c peer d line)].
Qed.
Print Assumptions C107_request_partial.

(** " get  //links/HNA..." : names are case sensitive; prefixes are not *)
Definition crlf : list Z := [13; 10].
Definition cfg4 : icfg := mkIC false 167772161 true false.
Example C107_request_ex :
  let l := [(1%nat, str "Plain"); (0%nat, str "links"); (2%nat, str "hna")] in
  let line := str " get  " ++ (ptext l ++ slashes 2) ++ str "  HTTP/1.1 " in
  let d := line ++ crlf ++ str "Host: x" ++ crlf in
  http_line line l /\ received d line /\ may_ask cfg4 LOOPBACK4 /\ ipc_action cfg4 LOOPBACK4 d (repeat 65 1024) = Some (mkRep false 10 200) /\
  plain_line (str "/all/nothing//") [(0%nat, str "all"); (0%nat, str "nothing")] /\ received (str "/all/nothing//") (str "/all/nothing//") /\
  ipc_action cfg4 LOOPBACK4 (str "/all/nothing//") (repeat 65 1024) = Some (mkRep false 0 404) /\
  ipc_action cfg4 167772161 (str "GET / HTTP/1.0") (repeat 65 1024) = Some (mkRep true (2 ^ 24 - 1) 200).
Proof.
  assert (N : forall t, t <> [] -> forallb (fun c => (33 <=? c) && (c <=? 255) && negb (c =? 47)) t = true -> name t).
  { intros t Ht F. split; [exact Ht|]. apply Forall_forall. intros k I. rewrite forallb_forall in F. specialize (F k I). unfold namechar. lia. }
  intros l line d. split; [|split; [|split; [|split; [|split; [|split; [|split]]]]]].
  - exists (str " "), (str "get"), (str "  "), 2%nat, (str "  "), (str "HTTP/1.1"), (str " ").
    assert (B1 : blank (str " ")) by (apply Forall_cons; [now left|constructor]). assert (B2 : blank (str "  ")) by (apply Forall_cons; [now left|exact B1]).
    split; [reflexivity|]. do 4 (split; [assumption|]). do 2 (split; [discriminate|]). split; [reflexivity|]. split; [exists 49; split; [reflexivity|now right]|]. split; [|discriminate].
    repeat (apply Forall_cons; [apply N; [discriminate|reflexivity]|]). constructor.
  - exists (crlf ++ str "Host: x" ++ crlf). split; [reflexivity|]. split; [right; exists 13, ([10] ++ str "Host: x" ++ crlf); split; [reflexivity|now right]|]. split; [discriminate|reflexivity].
  - right. right. split; reflexivity.
  - vm_compute. reflexivity.
  - exists [], 2%nat, []. split; [reflexivity|]. split; [constructor|]. split; [constructor|]. split; [|discriminate]. repeat (apply Forall_cons; [apply N; [discriminate|reflexivity]|]). constructor.
  - exists []. split; [now rewrite app_nil_r|]. split; [now left|]. split; [discriminate|reflexivity].
  - vm_compute. reflexivity.
  - vm_compute. reflexivity.
Qed.

(** A request that is nothing but a blank or a slash makes the server read before the start
    of its buffer. *)
Theorem C107_blank_refuted : exists c peer d junk, may_ask c peer /\ BUFSIZE <= blen (d ++ junk) /\ d = str "/" /\ ipc_action c peer d junk = None /\ ipc_action c peer (str " ") junk = None.
Proof.
  exists cfg4, LOOPBACK4, (str "/"), (repeat 65 1024). split; [right; right; split; reflexivity|]. split; [discriminate|]. split; [reflexivity|]. split; vm_compute; reflexivity.
Qed.
Print Assumptions C107_blank_refuted.
(** the same, character by character: the loop for slashes arrives before the buffer *)
Example C107_blank_ex : stripTrailingSlashes (str "/" ++ [0]) 0 1 = None /\ stripTrailingSlashes (str "a/" ++ [0]) 0 2 = Some (str "a" ++ [0; 0], 0, 1).
Proof. split; vm_compute; reflexivity. Qed.

(** An HTTP request for nothing but blanks is answered with an internal error. *)
Theorem C107_nothing_refuted : exists c peer d junk, may_ask c peer /\ BUFSIZE <= blen (d ++ junk) /\ d = str "GET   HTTP/1.1" ++ crlf /\
  exists r, ipc_action c peer d junk = Some r /\ p_status r = 500.
Proof.
  exists cfg4, LOOPBACK4, (str "GET   HTTP/1.1" ++ crlf), (repeat 65 1024). split; [right; right; split; reflexivity|]. split; [discriminate|]. split; [reflexivity|].
  eexists. split; vm_compute; reflexivity.
Qed.
Print Assumptions C107_nothing_refuted.
(** with the slash it is answered *)
Example C107_nothing_ex : ipc_action cfg4 LOOPBACK4 (str "GET /  HTTP/1.1" ++ crlf) (repeat 65 1024) = Some (mkRep true (2 ^ 24 - 1) 200).
Proof. vm_compute. reflexivity. Qed.

(** A request that does not fit is cut and answered as if the rest was not there: never
    with "request too large". *)
Theorem C107_large_refuted : exists c peer d junk, may_ask c peer /\ blen d = BUFSIZE /\ (forall x, In x d -> x <> 10 /\ x <> 13) /\
  (exists r, ipc_action c peer d junk = Some r /\ p_status r = 200 /\ p_what r = 2).
Proof.
  exists cfg4, LOOPBACK4, (repeat 47 1018 ++ str "linksX"), (repeat 65 1024). split; [right; right; split; reflexivity|]. split; [vm_compute; reflexivity|]. split.
  - intros x I. apply in_app_or in I. destruct I as [I|I]; [apply repeat_spec in I; lia|]. change (str "linksX") with [108; 105; 110; 107; 115; 88] in I. cbn [In] in I. lia.
  - eexists. split; [vm_compute; reflexivity|]. split; reflexivity.
Qed.
Print Assumptions C107_large_refuted.
(** the name is not a known one *)
Example C107_large_ex : lookup (str "linksX") = None /\ ipc_action cfg4 LOOPBACK4 (repeat 47 1017 ++ str "linksX") (repeat 65 1024) = Some (mkRep false 0 404).
Proof. split; vm_compute; reflexivity. Qed.

(** ** C108 *)
(** With IPv4 an answer is "forbidden" exactly if the host may not ask, and then nothing is
    sent. *)
Theorem C108_host_partial c peer d junk r : i_v6 c = false -> ipc_action c peer d junk = Some r ->
  (p_status r = 403 <-> ~ may_ask c peer) /\ (~ may_ask c peer -> p_what r = 0).
Proof.
  intros V A. pose proof (denied_v4 c peer V) as D. unfold ipc_action in A. destruct (sanitise d junk (i_headers c)) as [(((b & q) & len) & h)|]; [|discriminate].
  destruct (host_denied c peer).
  - apply Some_inj in A. subst r. cbn. assert (N : ~ may_ask c peer) by (intros M; apply D in M; discriminate). unfold HTTP_FORBIDDEN. tauto.
  - assert (M : may_ask c peer) by now apply D. assert (S : p_status r <> 403); [|tauto].
    destruct (2 ^ 63 <=? len); [apply Some_inj in A; subst r; discriminate|]. destruct (len =? 0); [apply Some_inj in A; subst r; discriminate|].
    destruct (BUFSIZE <=? len); [apply Some_inj in A; subst r; discriminate|]. destruct (rdb b q) as [c0|]; [|discriminate].
    destruct ((len =? 1) && (c0 =? 47)); [apply Some_inj in A; subst r; discriminate|]. destruct (cstr FUEL b q) as [s|]; [|discriminate]. destruct (determine_action s) as [w|]; [|discriminate].
    apply Some_inj in A. subst r. cbn. destruct (w =? 0); discriminate.
Qed.
Print Assumptions C108_host_partial.
Example C108_host_ex : ipc_action cfg4 167772162 (str "/links") (repeat 65 1024) = Some (mkRep false 0 403) /\ ~ may_ask cfg4 167772162 /\
  ipc_action cfg4 167772161 (str "/links") (repeat 65 1024) = Some (mkRep false 2 200) /\ may_ask cfg4 167772161.
Proof. split; [vm_compute; reflexivity|]. split; [intros [H|[H|(_ & H)]]; discriminate|]. split; [vm_compute; reflexivity|]. right. now left. Qed.

(** With IPv6 the local host is refused although it is allowed, and everybody is admitted
    although only the local host is. *)
Theorem C108_v6_refuted : exists c1 c2 peer d junk, i_v6 c1 = true /\ i_v6 c2 = true /\
  may_ask c1 LOOPBACK6 /\ (exists r, ipc_action c1 LOOPBACK6 d junk = Some r /\ p_status r = 403) /\
  ~ may_ask c2 peer /\ (exists r, ipc_action c2 peer d junk = Some r /\ p_status r = 200 /\ p_what r <> 0).
Proof.
  exists (mkIC true 77 true false), (mkIC true 1 true false), 99, (str "/links"), (repeat 65 1024). do 2 (split; [reflexivity|]).
  split; [right; right; split; reflexivity|]. split; [eexists; split; vm_compute; reflexivity|]. split; [intros [H|[H|(_ & H)]]; discriminate|].
  eexists. split; [vm_compute; reflexivity|]. split; [reflexivity|discriminate].
Qed.
Print Assumptions C108_v6_refuted.
Example C108_v6_ex : host_denied (mkIC true 77 false false) 77 = false /\ host_denied (mkIC true 77 false false) 78 = true.
Proof. split; reflexivity. Qed.
