(** C105 and C106: the JSON output of the information plugins *)
From Coq Require Import String.
From Verif Require Import Base Regex Json JsonSpec JsonProofs JsonUnique InfoCache InfoCacheSpec InfoCacheProofs.

(** C105: whatever data is printed (as long as it is not nested too deeply and its strings
    need no escaping), the text is JSON and denotes exactly that data, with and without
    pretty-printing. *)
Theorem C105_document_partial :
  forall pretty l, Forall (fun m => clean (fst m)) l -> Forall (fun m => printable (snd m) /\ (height (snd m) <= 14)%nat) l ->
  exists t, document pretty (calls_members l) = Some t /\ json_text t (JObj (denote_members l)) /\
    forall v, json_text t v -> v = JObj (denote_members l).
Proof.
  intros pretty l FC FP. destruct (document_json pretty l FC FP) as (t & E & J). exists t. split; [exact E|]. split; [exact J|]. intros v J'. now apply (json_text_unique t).
Qed.
Print Assumptions C105_document_partial.

Definition ex_doc : list (list Z * node) :=
  [(str "pid", NInt 4711);
   (str "links", NArr [NObj [(str "localIP", NIp (Some (str "10.0.0.1"))); (str "up", NBool true); (str "cost", NFloat (Fin false 1234567))];
                       NObj [(str "cost", NFloat Nan); (str "tags", NArr [])]]);
   (str "t", NFloat (Inf true))].
Lemma clean_check s : forallb (fun c => (32 <=? c) && negb (c =? 34) && negb (c =? 92)) s = true -> clean s.
Proof. intros F. apply Forall_forall. intros c I. rewrite forallb_forall in F. specialize (F c I). unfold plain. lia. Qed.
Ltac pr := repeat match goal with
  | |- clean _ => apply clean_check; reflexivity
  | |- printable _ => constructor
  | |- Forall _ [] => apply Forall_nil
  | |- Forall _ (_ :: _) => apply Forall_cons
  | |- Forall _ (map _ _) => cbn [map snd]
  | |- clean (fst _) => cbn [fst]
  | |- printable (snd _) => cbn [snd]
  | |- _ /\ (_ <= _)%nat => split; [cbn [snd]|cbn; lia]
  | |- _ <= _ < _ => lia
  | |- 0 <= _ <= _ => split; [lia|now vm_compute] end.
Example C105_document_example :
  Forall (fun m => clean (fst m)) ex_doc /\ Forall (fun m => printable (snd m) /\ (height (snd m) <= 14)%nat) ex_doc /\
  document false (firstn 1 (calls_members ex_doc)) = Some (str "{""pid"": 4711}" ++ [10]) /\
  document true (calls_members [(str "a", NArr [NBool true; NStr None])]) =
    Some (str "{" ++ [10] ++ str "  ""a"": [" ++ [10] ++ str "    true," ++ [10] ++ str "    """"" ++ [10] ++ str "  ]" ++ [10] ++ str "}" ++ [10]).
Proof.
  split; [|split; [|split; vm_compute; reflexivity]].
  - unfold ex_doc. pr.
  - unfold ex_doc. pr.
Qed.

(** Strings are not escaped: a plugin parameter, a name or an argument that contains a
    quotation mark changes the structure of the document. *)
Definition inj_doc : list (list Z * node) := [(str "v", NStr (Some (str "x"", ""admin"": ""yes")))].
Theorem C105_unescaped_refuted :
  exists l t, l = inj_doc /\ document false (calls_members l) = Some t /\ ~ json_text t (JObj (denote_members l)) /\
    json_text t (JObj [(str "v", JStr (str "x")); (str "admin", JStr (str "yes"))]).
Proof.
  exists inj_doc. destruct (document false (calls_members inj_doc)) as [t|] eqn:E; [|vm_compute in E; discriminate]. exists t. split; [reflexivity|]. split; [reflexivity|].
  assert (T : t = str "{""v"": ""x"", ""admin"": ""yes""}" ++ [10]) by (vm_compute in E; apply Some_inj in E; now rewrite <- E).
  assert (J : json_text t (JObj [(str "v", JStr (str "x")); (str "admin", JStr (str "yes"))])).
  { exists [], (str "{""v"": ""x"", ""admin"": ""yes""}"), [10]. split; [exact T|]. split; [constructor|]. split; [|constructor; [lia|constructor]].
    change (str "{""v"": ""x"", ""admin"": ""yes""}") with ([123] ++ (([] ++ [34] ++ str "v" ++ [34] ++ [] ++ [58] ++ [32] ++ ([34] ++ str "x" ++ [34]) ++ [] ++ [44] ++
      ([32] ++ [34] ++ str "admin" ++ [34] ++ [] ++ [58] ++ [32] ++ ([34] ++ str "yes" ++ [34]) ++ []))) ++ [125]).
    assert (W : ws [32]) by (constructor; [lia|constructor]). assert (W0 : ws []) by constructor.
    apply v_obj. apply m_more; auto; [apply chars_clean, clean_check; reflexivity|apply v_str, chars_clean, clean_check; reflexivity|].
    apply m_one; auto; [apply chars_clean, clean_check; reflexivity|apply v_str, chars_clean, clean_check; reflexivity]. }
  split; [|exact J]. intros J'. pose proof (json_text_unique _ _ _ J J') as X. discriminate X.
Qed.
Print Assumptions C105_unescaped_refuted.
Example C105_unescaped_example : document false (calls_members inj_doc) = Some (str "{""v"": ""x"", ""admin"": ""yes""}" ++ [10]).
Proof. vm_compute. reflexivity. Qed.

(** C106: however the requests follow each other, and although the texts of sections are
    kept with their commas, every reply is one JSON document: the members of the start,
    then the sections that were asked for in the order of the table, each with data that it
    has now or had less than the cache timeout ago. *)
Theorem C106_cached_replies :
  forall pretty timeout xs, Forall good xs ->
  exists ts, serve pretty timeout cache_empty (map d_req xs) = Some ts /\ length ts = length xs /\
    forall i x t, nth_error xs i = Some x -> nth_error ts i = Some t ->
      exists l, shows timeout (rev (firstn (S i) xs)) x table l /\ json_text t (JObj (denote_members (d_start x ++ l))).
Proof.
  intros pretty timeout xs FG. destruct (serve_ok pretty timeout xs [] cache_empty FG (cached_empty timeout)) as (ts & E & L & R).
  exists ts. split; [exact E|]. split; [exact L|]. intros i x t Hx Ht. destruct (R i x t Hx Ht) as (l & S0 & J). exists l. split; [|exact J]. now rewrite app_nil_r in S0.
Qed.
Print Assumptions C106_cached_replies.

(** two requests: first for the links, then within the timeout for neighbours and links *)
Definition ex_data (n : Z) (siw : Z) : option (list (list Z * node)) :=
  if siw =? SIW_NEIGHBORS then Some [(str "neighbors", NArr [NInt n])] else if siw =? SIW_LINKS then Some [(str "links", NArr [NInt n])] else None.
Definition ex_dreq (n what now : Z) : dreq :=
  mkDQ (mkQ what (calls_members [(str "pid", NInt 1)]) (fun _ => now) (fun siw => option_map calls_members (ex_data n siw))) [(str "pid", NInt 1)] (ex_data n).
Lemma ex_dreq_good n what now : -100 <= n <= 100 -> good (ex_dreq n what now).
Proof.
  intros H. constructor; try reflexivity; try discriminate.
  - cbn [d_start ex_dreq]. split; pr.
  - intros siw d E. cbn [d_data ex_dreq] in E. unfold ex_data in E. destruct (siw =? SIW_NEIGHBORS); [|destruct (siw =? SIW_LINKS); [|discriminate]];
      apply Some_inj in E; subst d; split; pr.
Qed.
Example C106_cached_replies_example :
  Forall good [ex_dreq 1 SIW_LINKS 5; ex_dreq 2 (SIW_NEIGHBORS + SIW_LINKS) 900; ex_dreq 3 SIW_ALL 1006] /\
  serve false 1000 cache_empty (map d_req [ex_dreq 1 SIW_LINKS 5; ex_dreq 2 (SIW_NEIGHBORS + SIW_LINKS) 900; ex_dreq 3 SIW_ALL 1006]) =
    Some [str "{""pid"": 1,""links"": [1]}" ++ [10]; str "{""pid"": 1,""neighbors"": [2],""links"": [1]}" ++ [10]; str "{""pid"": 1,""neighbors"": [2],""links"": [3]}" ++ [10]].
Proof. split; [repeat (apply Forall_cons; [apply ex_dreq_good; lia|]); apply Forall_nil|vm_compute; reflexivity]. Qed.
