(** C177: the file with a fixed position *)
From Coq Require Import String.
From Verif Require Import Base Regex SpeedFile SpeedFileSpec SpeedFileProofs PosFile PosFileSpec PosFileProofs.

(** A new file of usable lines gives each setting the value of the last line with its name, and
    none where there is no such line.  Missing: lines of other shapes *)
Theorem C177_read_partial : forall D I (rd : list Z -> option D) (fin : pos D -> I) ls m h,
  Forall shaped ls -> Forall (usable num_keys rd) ls -> m <> h_stamp h ->
  exists p c, read_pos rd fin (FFile m (concat (map ptext ls))) h = (mkHeld m (fin p), true, c) /\
    (forall o, last_value (str "sig") ls o -> match o with None => p_sig p = None | Some v => exists x, means signals v x /\ p_sig p = Some x end) /\
    (forall o, last_value (str "fix") ls o -> match o with None => p_fix p = None | Some v => exists x, means fixes v x /\ p_fix p = Some x end) /\
    (forall i k o, nth_error [str "hdop"; str "lat"; str "lon"; str "elv"; str "speed"; str "track"; str "mtrack"; str "magvar"] i = Some k ->
       last_value k ls o -> nth i (p_num p) None = match o with None => None | Some v => rd v end).
Proof.
  intros D I rd fin ls m h Sh U M. destruct (agrees_all rd ls U) as (p & E & _ & A). exists p, 2%nat. split; [|exact A]. cbn [read_pos]. replace (m =? h_stamp h) with false by lia.
  pose proof (plen ls [] Sh) as L. rewrite <- (app_nil_r (concat (map ptext ls))). rewrite lines_ok by (try assumption; lia). rewrite E.
  destruct (List.length (concat (map ptext ls) ++ []) - List.length ls)%nat; reflexivity.
Qed.
Print Assumptions C177_read_partial.
Definition pf : list pline := [PComment (str "# here"); PSet (str "Lat") [] [] (str "5230") [32]; PSet (str "sig") [32] [32] (str "HIGH") []; PSet (str "lat") [32] [] (str "5231") []].
Definition lens (v : list Z) : option Z := if existsb (Z.eqb 33) v then None else Some (hd 0 (rev v) - 48).
Ltac ex_fa := repeat (apply Forall_cons; [unfold white, blank; cbn; lia|]); apply Forall_nil.
Ltac ex_set := split; [split; [discriminate|ex_fa]|]; split; [discriminate|]; split; [split; [discriminate|ex_fa]|]; split; [ex_fa|]; split; ex_fa.
Example C177_read_ex : Forall shaped pf /\ Forall (usable num_keys lens) pf /\ last_value (str "lat") pf (Some (str "5231")) /\
  read_pos lens (fun p => p) (FFile 7 (concat (map ptext pf))) (mkHeld 3 none_yet) =
    (mkHeld 7 (mkPos (Some 3) None [None; Some 1; None; None; None; None; None; None]), true, 2%nat).
Proof.
  split; [|split; [|split; [|vm_compute; reflexivity]]].
  - constructor; [|constructor; [|constructor; [|constructor; [|constructor]]]]; (split; [vm_compute; repeat constructor|]).
    + split; [repeat (apply Forall_cons; [cbn; lia|]); apply Forall_nil|right; eexists; reflexivity].
    + ex_set.
    + ex_set.
    + ex_set.
  - constructor; [exact I|constructor; [|constructor; [|constructor; [|constructor]]]].
    + right. right. exists (str "lat"). split; [cbn; tauto|]. split; [apply called_lower; reflexivity|discriminate].
    + left. split; [apply called_lower; reflexivity|]. exists 3. exists (str "high"). split; [cbn; tauto|apply called_lower; reflexivity].
    + right. right. exists (str "lat"). split; [cbn; tauto|]. split; [apply called_lower; reflexivity|discriminate].
  - apply (lv_set (str "lat") [PComment (str "# here"); PSet (str "Lat") [] [] (str "5230") [32]; PSet (str "sig") [32] [32] (str "HIGH") []] (str "lat") [32] [] (str "5231") []). apply called_lower; reflexivity.
Qed.

(** A line with an unknown name or an impossible value keeps the position, whatever is around it *)
Theorem C177_wrong : forall D I (rd : list Z -> option D) (fin : pos D -> I) ls l s m h,
  Forall shaped (ls ++ [l]) -> ~ usable num_keys rd l -> exists h' c, read_pos rd fin (FFile m (concat (map ptext (ls ++ [l])) ++ s)) h = (h', false, c) /\ h_info h' = h_info h.
Proof.
  intros D I rd fin ls l s m h Sh U. cbn [read_pos]. destruct (m =? h_stamp h); [eexists _, _; split; reflexivity|]. pose proof (plen _ s Sh) as L. rewrite lines_ok by (try assumption; lia).
  rewrite steps_app. cbn [steps]. destruct (steps rd ls none_yet) as [p|]; [rewrite (unusable rd l p U)|]; eexists _, _; split; reflexivity.
Qed.
Print Assumptions C177_wrong.
Example C177_wrong_ex : read_pos lens (fun p => p) (FFile 7 (str "lat=1" ++ [10] ++ str "lot=2" ++ [10])) (mkHeld 3 none_yet) = (mkHeld 7 none_yet, false, 2%nat).
Proof. vm_compute. reflexivity. Qed.

(** For any text: the position changes only together with the result true, and then all of it
    comes from this file; a file that is gone or that has the time of the last one changes none *)
Theorem C177_atomic : forall D I (rd : list Z -> option D) (fin : pos D -> I) x h,
  let '(h', ok, _) := read_pos rd fin x h in
  (ok = false -> h_info h' = h_info h) /\
  (ok = true -> exists m t, x = FFile m t /\ m <> h_stamp h /\ h_stamp h' = m /\
     forall h2, h_stamp h2 <> m -> h_info (fst (fst (read_pos rd fin x h2))) = h_info h').
Proof.
  intros D I rd fin x h. destruct x as [|m t]; cbn [read_pos]; [split; [reflexivity|discriminate]|]. destruct (m =? h_stamp h) eqn:E; [split; [reflexivity|discriminate]|].
  destruct (pos_lines rd (List.length t) t none_yet) as [p|] eqn:P; [|split; [reflexivity|discriminate]]. split; [discriminate|]. intros _. exists m, t. split; [reflexivity|]. split; [lia|]. split; [reflexivity|].
  intros h2 N. replace (m =? h_stamp h2) with false by lia. reflexivity.
Qed.
Print Assumptions C177_atomic.
Example C177_atomic_ex : read_pos lens (fun p => p) (FFile 7 (str "lat=1" ++ [10])) (mkHeld 3 none_yet) = (mkHeld 7 (mkPos None None [None; Some 1; None; None; None; None; None; None]), true, 2%nat).
Proof. vm_compute. reflexivity. Qed.

(** The descriptor of every file that is read is closed twice *)
Theorem C177_close_always : forall D I (rd : list Z -> option D) (fin : pos D -> I) m t h, m <> h_stamp h -> snd (read_pos rd fin (FFile m t) h) = 2%nat.
Proof. intros D I rd fin m t h N. cbn [read_pos]. replace (m =? h_stamp h) with false by lia. destruct (pos_lines rd (List.length t) t none_yet); reflexivity. Qed.
Print Assumptions C177_close_always.
Theorem C177_close_refuted : exists m t, snd (read_pos lens (fun p => p) (FFile m t) (mkHeld 0 none_yet)) <> 1%nat.
Proof. exists 7, (str "lat=1"). discriminate. Qed.
Print Assumptions C177_close_refuted.
(** A setting behind a blank is taken as a comment *)
Theorem C177_indent_refuted : exists m t h, t = str " lat=5" ++ [10] /\ read_pos lens (fun p => p) (FFile m t) h = (mkHeld m none_yet, true, 2%nat) /\ lens (str "5") <> None.
Proof. exists 7, (str " lat=5" ++ [10]), (mkHeld 3 none_yet). split; [reflexivity|]. split; [vm_compute; reflexivity|discriminate]. Qed.
Print Assumptions C177_indent_refuted.
(** A comment of more than 254 characters can make the file invalid *)
Theorem C177_long_refuted : exists t h, ~ In 10 t /\ read_pos lens (fun p => p) (FFile 7 (35 :: t ++ [10] ++ str "lat=5" ++ [10])) h = (mkHeld 7 (h_info h), false, 2%nat).
Proof.
  exists (repeat 45 300), (mkHeld 3 none_yet). split; [intros H; apply repeat_spec in H; discriminate|vm_compute; reflexivity].
Qed.
Print Assumptions C177_long_refuted.
