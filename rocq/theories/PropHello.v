(** C14, C15, C55: decoding HELLO messages (src/process_package.c). *)
From Verif Require Import Base Bytes Parser ParserSpec Hello HelloSpec HelloProofs.

(** C14: a well-formed OLSR message (type, size and body consistent, so that
    parse_packet hands it over) whose only block claims 65535 bytes makes the
    decoder read beyond the message and beyond the whole receive buffer the
    message sits in. *)
Definition long_block : list Z :=
  [201; 134; 0; 20; 10; 0; 0; 2; 1; 0; 0; 5; 0; 0; 134; 3; 2; 0; 255; 255].
Theorem C14_reads_beyond_refuted : exists m, wf_msg 4 m /\ bytes m /\
  deserialize_hello 4 (enough 4) (m ++ repeat 0 (Z.to_nat (INBUF - 4 - blen m))) = HOob.
Proof.
  exists long_block. split; [unfold wf_msg; vm_compute; repeat split; discriminate|]. split; [unfold long_block; repeat constructor; lia|].
  vm_compute. reflexivity.
Qed.
Print Assumptions C14_reads_beyond_refuted.

(** and a HELLO of 12 bytes, the smallest message parse_packet lets through, has
    no HELLO header: the decoder reads 4 bytes that belong to nobody *)
Theorem C14_short_hello_refuted : exists m, wf_msg 4 m /\ bytes m /\ deserialize_hello 4 (enough 4) m = HOob.
Proof.
  exists [201; 134; 0; 12; 10; 0; 0; 2; 1; 0; 0; 5]. split; [unfold wf_msg; vm_compute; repeat split; discriminate|].
  split; [repeat constructor; lia|]. vm_compute. reflexivity.
Qed.
Print Assumptions C14_short_hello_refuted.

(** C14, what does hold: for any bytes the decoder ends, and no neighbor node is
    touched after it was freed nor a NULL pointer followed.  Missing: that reads
    stay inside, which is false, see above (true for messages whose blocks fit,
    see C15). *)
Theorem C14_ends_and_list_safe_partial : forall ips fuel buf, 0 < ips -> bytes buf -> (enough ips <= fuel)%nat ->
  deserialize_hello ips fuel buf <> HFuel /\ deserialize_hello ips fuel buf <> HUB.
Proof.
  intros ips fuel buf Hi B Hf. unfold enough in Hf. pose proof (hello_any ips Hi fuel buf B ltac:(lia)) as H.
  destruct (deserialize_hello ips fuel buf); split; solve [discriminate|destruct H].
Qed.
Print Assumptions C14_ends_and_list_safe_partial.
Definition odd_hello : list Z :=
  [1; 134; 0; 27; 10; 0; 0; 2; 1; 0; 0; 5; 0; 0; 134; 3; 0; 0; 0; 8; 10; 0; 0; 3; 2; 0; 0; 3; 10; 0; 0; 3; 9; 9; 9; 9; 9].
Example C14_ends_ex : bytes odd_hello /\ deserialize_hello 4 (enough 4) odd_hello = HOk (mkHdr 134 [10; 0; 0; 2] 1 0 5 134 3, [mkHN 0 0 [10; 0; 0; 3] []]).
Proof. split; [unfold odd_hello; repeat constructor; lia|]. vm_compute. reflexivity. Qed.

(** C15: for every well-formed HELLO or LQ HELLO, whatever follows it in the
    buffer, the decoded header is the one encoded and the decoded list holds the
    advertised neighbors, grouped by link type, without those of unspecified link
    type whose address is also advertised with a specified one. *)
Theorem C15_decode_exact : forall ips x fuel post, 0 < ips -> wf_hello ips x -> (enough ips <= fuel)%nat ->
  deserialize_hello ips fuel (enc_hello x ++ post) = HOk (x_hdr x, rev (hello_neighbors x)).
Proof. intros ips x fuel post Hi W Hf. unfold enough in Hf. apply hello_exact; [exact Hi|exact W|lia]. Qed.
Print Assumptions C15_decode_exact.

(** stated as membership: what is in the list *)
Theorem C15_members : forall ips x fuel post, 0 < ips -> wf_hello ips x -> (enough ips <= fuel)%nat ->
  exists l, deserialize_hello ips fuel (enc_hello x ++ post) = HOk (x_hdr x, l) /\
  forall n, In n l <-> (exists b e, In b (x_blocks x) /\ In e (b_entries b) /\
      n = mkHN (b_code b mod 4) (b_code b / 4 mod 4) (e_addr e) (if x_lq x then e_lq e else [])) /\
    ~ (hn_link n = 0 /\ exists b e, In b (x_blocks x) /\ In e (b_entries b) /\ b_code b mod 4 <> 0 /\ e_addr e = hn_addr n).
Proof.
  intros ips x fuel post Hi W Hf. exists (rev (hello_neighbors x)). split; [now apply C15_decode_exact|].
  intros n. rewrite <- in_rev. unfold hello_neighbors. cbv zeta. rewrite filter_In, by_type_in.
  assert (A : forall n, In n (flat_map (advertised (x_lq x)) (x_blocks x)) <-> exists b e, In b (x_blocks x) /\ In e (b_entries b) /\
      n = mkHN (b_code b mod 4) (b_code b / 4 mod 4) (e_addr e) (if x_lq x then e_lq e else [])).
  { intros n0. rewrite in_flat_map. unfold advertised. split.
    - intros (b & Hb & H). apply in_map_iff in H. destruct H as (e & <- & He). exists b, e. auto.
    - intros (b & e & Hb & He & ->). exists b. split; [exact Hb|]. apply in_map_iff. exists e. auto. }
  rewrite A. assert (S : superseded (flat_map (advertised (x_lq x)) (x_blocks x)) n = true <->
    hn_link n = 0 /\ exists b e, In b (x_blocks x) /\ In e (b_entries b) /\ b_code b mod 4 <> 0 /\ e_addr e = hn_addr n).
  { unfold superseded. rewrite andb_true_iff, Z.eqb_eq, existsb_exists. split.
    - intros (L & m & Hm & Q). split; [exact L|]. apply A in Hm. destruct Hm as (b & e & Hb & He & ->). cbn [hn_link hn_addr] in Q.
      apply andb_true_iff in Q. destruct Q as (Q1 & Q2). apply addr_eqb_spec in Q2. exists b, e. repeat split; auto. lia.
    - intros (L & b & e & Hb & He & Hn & Ha). split; [exact L|].
      exists (mkHN (b_code b mod 4) (b_code b / 4 mod 4) (e_addr e) (if x_lq x then e_lq e else [])). split; [apply A; exists b, e; auto|].
      cbn [hn_link hn_addr]. apply andb_true_iff. split; [lia|]. apply addr_eqb_spec. now symmetry. }
  destruct (superseded (flat_map (advertised (x_lq x)) (x_blocks x)) n); cbn [negb].
  - split; [intros (_ & Q); discriminate|]. intros (_ & Q). exfalso. apply Q. now apply S.
  - split; [|tauto]. intros (Q & _). split; [exact Q|]. intros Q2. apply S in Q2. discriminate.
Qed.
Print Assumptions C15_members.

Definition ex_hello : hello := mkHello true (mkHdr 134 [10; 0; 0; 2] 1 0 5 134 3) [0; 0]
  [mkB 6 0 [mkE [10; 0; 0; 7] [255; 200] [0; 0]; mkE [10; 0; 0; 8] [1; 2] [0; 0]];
   mkB 0 0 [mkE [10; 0; 0; 9] [0; 0] [0; 0]; mkE [10; 0; 0; 7] [0; 0] [0; 0]]; mkB 3 0 []].
Example C15_ex : wf_hello 4 ex_hello /\
  hello_neighbors ex_hello = [mkHN 0 0 [10; 0; 0; 9] [0; 0]; mkHN 2 1 [10; 0; 0; 7] [255; 200]; mkHN 2 1 [10; 0; 0; 8] [1; 2]].
Proof.
  split; [|vm_compute; reflexivity]. unfold wf_hello. split; [reflexivity|]. split; [reflexivity|]. cbn [x_hdr h_seq ex_hello]. split; [lia|].
  split; [|vm_compute; reflexivity]. unfold ex_hello. cbn [x_blocks]. repeat constructor; cbn; lia.
Qed.

(** C55: a zero block size ends decoding with the neighbors read so far
    allocated and referenced by nobody; the caller just returns. *)
Theorem C55_leak_refuted : exists m l, wf_msg 4 m /\ bytes m /\ l <> [] /\ input_hello 4 (enough 4) m = Drop l.
Proof.
  exists [1; 134; 0; 28; 10; 0; 0; 2; 1; 0; 0; 5; 0; 0; 134; 3; 0; 0; 0; 8; 10; 0; 0; 3; 0; 0; 0; 0], [mkHN 0 0 [10; 0; 0; 3] []].
  split; [unfold wf_msg; vm_compute; repeat split; discriminate|]. split; [repeat constructor; lia|]. split; [discriminate|]. vm_compute. reflexivity.
Qed.
Print Assumptions C55_leak_refuted.

(** C55, what does hold: a well-formed HELLO always reaches olsr_hello_tap. *)
Theorem C55_wellformed_tapped : forall ips x fuel post, 0 < ips -> wf_hello ips x -> (enough ips <= fuel)%nat ->
  input_hello ips fuel (enc_hello x ++ post) = Tap (rev (hello_neighbors x)).
Proof. intros ips x fuel post Hi W Hf. unfold input_hello. now rewrite C15_decode_exact. Qed.
Print Assumptions C55_wellformed_tapped.
