(** C128: the message digest of the secure plugin. *)
From Coq Require Import String.
From Verif Require Import Base Regex Md5 Md5Spec Md5Proofs.

(** C128: MD5Init, any number of calls of MD5Update and MD5Final give the digest of RFC 1321
    of all the data together, whatever the buffer held before and however the data is cut;
    for calls with less than 2^32 - 63 bytes *)
Theorem C128_digest_partial : forall junk parts, length junk = 64%nat ->
  Forall (Forall byte) parts -> Forall (fun d => Z.of_nat (length d) + 64 <= 2 ^ 32) parts ->
  exists c, updates (init junk) parts = Some c /\ final c = Some (md5 (concat parts)).
Proof.
  intros junk parts J F B. destruct (updates_ok parts (init junk) [] (init_ok junk J) F B) as (c & E & H).
  exists c. split; [exact E|]. exact (final_ok c _ H).
Qed.
Print Assumptions C128_digest_partial.

(** the test suite of RFC 1321 and two blocks in uneven parts *)
Example C128_suite :
  md5 [] = [0xd4; 0x1d; 0x8c; 0xd9; 0x8f; 0x00; 0xb2; 0x04; 0xe9; 0x80; 0x09; 0x98; 0xec; 0xf8; 0x42; 0x7e] /\
  md5 (str "abc") = [0x90; 0x01; 0x50; 0x98; 0x3c; 0xd2; 0x4f; 0xb0; 0xd6; 0x96; 0x3f; 0x7d; 0x28; 0xe1; 0x7f; 0x72] /\
  md5 (str "message digest") = [0xf9; 0x6b; 0x69; 0x7d; 0x7c; 0xb7; 0x93; 0x8d; 0x52; 0x5a; 0x2f; 0x31; 0xaa; 0xf1; 0x61; 0xd0] /\
  md5 (str "12345678901234567890123456789012345678901234567890123456789012345678901234567890") =
    [0x57; 0xed; 0xf4; 0xa2; 0x2b; 0xe3; 0xc9; 0x55; 0xac; 0x49; 0xda; 0x2e; 0x21; 0x07; 0xb6; 0x7a].
Proof. repeat split; vm_compute; reflexivity. Qed.
Example C128_digest_ex :
  let parts := [str "1234567890123456789012345678901234567890"; []; str "12345678901234567890123456789012345678"; str "90"] in
  length (repeat 7 64) = 64%nat /\ Forall (Forall byte) parts /\ Forall (fun d => Z.of_nat (length d) + 64 <= 2 ^ 32) parts /\
  exists c, updates (init (repeat 7 64)) parts = Some c /\
    final c = Some [0x57; 0xed; 0xf4; 0xa2; 0x2b; 0xe3; 0xc9; 0x55; 0xac; 0x49; 0xda; 0x2e; 0x21; 0x07; 0xb6; 0x7a].
Proof.
  cbv zeta. split; [reflexivity|]. split.
  { repeat (apply Forall_cons; [apply bytes_ok; vm_compute; reflexivity|]). apply Forall_nil. }
  split; [repeat (apply Forall_cons; [vm_compute; discriminate|]); apply Forall_nil|].
  match goal with |- exists c, ?u = Some c /\ _ => destruct u as [c|] eqn:E; [|vm_compute in E; discriminate E] end.
  exists c. split; [reflexivity|]. vm_compute in E. inversion E; subst. vm_compute. reflexivity.
Qed.

(** what the plugin uses: the digest of one piece of memory of less than 64 KiB *)
Theorem C128_checksum : forall junk data len, length junk = 64%nat -> Forall byte data ->
  0 <= len <= Z.of_nat (length data) -> len < 65536 ->
  checksum junk data len = Some (md5 (firstn (Z.to_nat len) data)).
Proof.
  intros junk data len J F L B. unfold checksum, u16. rewrite Z.mod_small by lia.
  destruct (update_ok (init junk) [] data len (init_ok junk J) F L ltac:(lia)) as (c & E & H). rewrite E. exact (final_ok c _ H).
Qed.
Print Assumptions C128_checksum.
Example C128_checksum_ex : Forall byte (str "abcd") /\
  checksum (repeat 0 64) (str "abcd") 3 = Some (md5 (str "abc")).
Proof.
  split; [apply bytes_ok; vm_compute; reflexivity|vm_compute; reflexivity].
Qed.

(** a call with nearly 4 GiB after one byte: the loop does not end at the end of the data *)
Lemma runs_over : forall fuel s inp i, Z.of_nat (length inp) = 2 ^ 32 - 1 -> i mod 64 = 63 ->
  middle fuel s inp (2 ^ 32 - 1) i = None.
Proof.
  induction fuel as [|fuel IH]; intros s inp i L I; [reflexivity|]. cbn [middle].
  replace (u32 (i + 63) <? 2 ^ 32 - 1) with true by (unfold u32; lia).
  destruct (rd inp i 64); [|reflexivity]. apply IH; [exact L|]. unfold u32. lia.
Qed.
Theorem C128_length_refuted : exists parts, Forall (Forall byte) parts /\
  Forall (fun d => Z.of_nat (length d) < 2 ^ 32) parts /\ updates (init (repeat 0 64)) parts = None.
Proof.
  set (big := repeat 0 (Z.to_nat (2 ^ 32 - 1))).
  assert (L : Z.of_nat (length big) = 2 ^ 32 - 1) by (unfold big; rewrite repeat_length, Z2Nat.id by lia; reflexivity).
  assert (F : Forall byte big) by (apply Forall_forall; intros x I; unfold big in I; apply repeat_spec in I; subst x; unfold byte; lia).
  clearbody big. exists [[97]; big].
  split; [apply Forall_cons; [apply Forall_cons; [unfold byte; lia|apply Forall_nil]|apply Forall_cons; [exact F|apply Forall_nil]]|].
  split; [apply Forall_cons; [cbn; lia|apply Forall_cons; [lia|apply Forall_nil]]|].
  cbn [updates]. destruct (update (init (repeat 0 64)) [97] (Z.of_nat (length [97]))) as [c|] eqn:E; [|vm_compute in E; discriminate E].
  assert (C0 : x_c0 c = 8) by (vm_compute in E; inversion E; reflexivity). clear E.
  rewrite L. unfold update. cbv zeta. rewrite C0. change (Z.land (Z.shiftr 8 3) 63) with 1. change (u32 (64 - 1)) with 63.
  change (63 <=? 2 ^ 32 - 1) with true. cbv iota. destruct (rd big 0 63); [|reflexivity]. destruct (wr (x_buf c) 1 l); [|reflexivity].
  rewrite runs_over by (exact L || reflexivity). reflexivity.
Qed.
Print Assumptions C128_length_refuted.
