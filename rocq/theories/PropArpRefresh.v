(** Theorems about the plugin arprefresh (C161, C162). *)
From Verif Require Import Base ArpRefresh ArpRefreshSpec ArpRefreshProofs.

Definition head (src : list Z) (ip : list Z) : list Z :=
  [255; 255; 255; 255; 255; 255] ++ src ++ [8; 0; 69; 0; 0; 48; 0; 0; 0; 0; 1; 17; 0; 0] ++ ip ++ [255; 255; 255; 255; 2; 186; 2; 186; 0; 28; 0; 0].
Definition ex_f : list Z := head [2; 0; 0; 0; 0; 9] [10; 0; 0; 9] ++ repeat 0 20.
Lemma head_ok src ip r : length src = 6%nat -> length ip = 4%nat -> good_frame (7, head src ip ++ r).
Proof.
  intros A B. destruct src as [|a0 [|a1 [|a2 [|a3 [|a4 [|a5 [|]]]]]]]; try discriminate. destruct ip as [|b0 [|b1 [|b2 [|b3 [|]]]]]; try discriminate.
  split; [|cbn [snd head app]; cbn [length]; lia]. unfold olsr_frame, ihl, two. cbn [snd head app nth Z.to_nat]. split; [reflexivity|]. split; [reflexivity|]. split; [reflexivity|]. split; [cbn [length]; cbn; lia|]. split; [cbn [length]; lia|]. reflexivity.
Qed.

(** The filter lets through 42 bytes of the frames with UDP to port 698 in IPv4, and no others. *)
Theorem C161_filter f : (olsr_frame f -> filter_len f = 42) /\ (~ olsr_frame f -> filter_len f = 0).
Proof. apply filter_ok. Qed.
Print Assumptions C161_filter.
Example C161_filter_ex : olsr_frame ex_f /\ filter_len ex_f = 42 /\ filter_len (firstn 37 ex_f) = 0 /\ filter_len (head (repeat 0 6) (repeat 1 4)) = 42.
Proof. split; [apply (head_ok [2; 0; 0; 0; 0; 9] [10; 0; 0; 9] (repeat 0 20)); reflexivity|]. vm_compute. repeat split. Qed.

(** Whatever comes in, each request for the ARP cache is for the sender of an OLSR frame that
    has come in, in the order of the frames, each at most once. *)
Theorem C161_requests cap l s o : run cap start l = (s, o) -> exists used, subseq used (arrived l) /\ Forall2 (fun x r => sender (fst x) (snd x) r /\ good_frame x) used o.
Proof. apply requests. Qed.
Print Assumptions C161_requests.
Example C161_requests_ex : snd (run 10 start [Frame 3 ex_f; Frame 3 (repeat 0 60); Timer true; Timer true]) = [mkA 3 [10; 0; 0; 9] [2; 0; 0; 0; 0; 9]].
Proof. vm_compute. reflexivity. Qed.

(** Every OLSR frame that finds room is used, one for each run of the timer. *)
Theorem C161_refreshed cap q : (length q <= cap)%nat -> Forall good_frame q -> exists o, run cap start (map (fun x => Frame (fst x) (snd x)) q ++ repeat (Timer true) (length q)) = (start, o) /\ Forall2 (fun x r => sender (fst x) (snd x) r) q o.
Proof. apply refreshed. Qed.
Print Assumptions C161_refreshed.
Example C161_refreshed_ex : good_frame (7, ex_f) /\ run 10 start ([Frame 7 ex_f; Frame 8 ex_f] ++ repeat (Timer true) 2) = (start, [mkA 7 [10; 0; 0; 9] [2; 0; 0; 0; 0; 9]; mkA 8 [10; 0; 0; 9] [2; 0; 0; 0; 0; 9]]).
Proof. split; [apply (head_ok [2; 0; 0; 0; 0; 9] [10; 0; 0; 9] (repeat 0 20)); reflexivity|]. vm_compute. reflexivity. Qed.

(** The frame need not be an IPv4 datagram: with a header length of 0 the length of the
    datagram is taken for the port. *)
Theorem C161_malformed_refuted : exists f, ihl f = 0 /\ snd (run 1 start [Frame 1 f; Timer true]) <> [].
Proof.
  exists ([255; 255; 255; 255; 255; 255; 2; 0; 0; 0; 0; 9; 8; 0; 64; 0; 2; 186; 0; 0; 0; 0; 1; 17; 0; 0; 10; 0; 0; 9] ++ repeat 0 30). split; [reflexivity|]. vm_compute. discriminate.
Qed.
Print Assumptions C161_malformed_refuted.

(** C162: any host of the link can have any hardware address written for any address, also
    those of other hosts. *)
Theorem C162_spoof_refuted : forall cap dev ip ha, (0 < cap)%nat -> length ip = 4%nat -> length ha = 6%nat -> snd (run cap start [Frame dev (head ha ip); Timer true]) = [mkA dev ip ha].
Proof.
  intros cap dev ip ha C A B. destruct (head_ok ha ip [] B A) as (G & _). rewrite app_nil_r in G. cbn [snd] in G. destruct cap as [|cap]; [lia|].
  cbn [run step start t_open t_queue]. rewrite (proj1 (filter_ok _) G). cbn [andb Z.ltb Z.compare length Nat.ltb Nat.leb app snd].
  destruct ha as [|a0 [|a1 [|a2 [|a3 [|a4 [|a5 [|]]]]]]]; try discriminate. destruct ip as [|b0 [|b1 [|b2 [|b3 [|]]]]]; try discriminate. reflexivity.
Qed.
Print Assumptions C162_spoof_refuted.
Example C162_spoof_refuted_ex : snd (run 1 start [Frame 2 (head [6; 6; 6; 6; 6; 6] [10; 0; 0; 1]); Timer true]) = [mkA 2 [10; 0; 0; 1] [6; 6; 6; 6; 6; 6]].
Proof. vm_compute. reflexivity. Qed.

(** One request that the kernel refuses ends the refreshing for good. *)
Theorem C162_stop_refuted : forall cap dev f l, (0 < cap)%nat -> good_frame (dev, f) -> exists r, snd (run cap start (Frame dev f :: Timer false :: l)) = [r].
Proof.
  intros cap dev f l C (G & L). cbn [snd] in *. destruct cap as [|cap]; [lia|]. cbn [run step start t_open t_queue]. rewrite (proj1 (filter_ok _) G). cbn [andb Z.ltb Z.compare length Nat.ltb Nat.leb app t_open t_queue].
  rewrite firstn_length. replace (42 <=? Z.of_nat (Nat.min (Z.to_nat 42) (length f))) with true by lia. assert (CL := closed (S cap) l (mkT false []) eq_refl). destruct (run (S cap) (mkT false []) l) as [s2 o2]. cbn [snd] in *. subst o2. eexists. reflexivity.
Qed.
Print Assumptions C162_stop_refuted.
Example C162_stop_refuted_ex : snd (run 9 start [Frame 1 ex_f; Timer false; Frame 1 ex_f; Timer true; Timer true]) = [mkA 1 [10; 0; 0; 9] [2; 0; 0; 0; 0; 9]].
Proof. vm_compute. reflexivity. Qed.

(** With more than one frame in two seconds the cache gets old senders: an address that has
    moved to other hardware is written back to the old one. *)
Theorem C162_lag_refuted : exists f1 f2 r, good_frame (1, f1) /\ good_frame (1, f2) /\ snd (run 9 start [Frame 1 f1; Frame 1 f1; Frame 1 f2; Timer true; Timer true]) = [r; r] /\ sender 1 f1 r /\ a_ip r = firstn 4 (skipn 26 f2) /\ a_ha r <> firstn 6 (skipn 6 f2).
Proof.
  exists (head [2; 0; 0; 0; 0; 1] [10; 0; 0; 9] ++ []), (head [2; 0; 0; 0; 0; 2] [10; 0; 0; 9] ++ []), (mkA 1 [10; 0; 0; 9] [2; 0; 0; 0; 0; 1]).
  split; [apply head_ok; reflexivity|]. split; [apply head_ok; reflexivity|]. split; [vm_compute; reflexivity|]. split; [|split; [reflexivity|discriminate]].
  apply (sender_cut 1 (head [2; 0; 0; 0; 0; 1] [10; 0; 0; 9] ++ [])). cbn [head app length]. lia.
Qed.
Print Assumptions C162_lag_refuted.
