(** Properties of the ordered tree and its comparison functions. *)
From Verif Require Import Base Avl AvlSpec AvlProofs Compare CompareProofs.
From Coq Require Import Sorting.Sorted.

(** C25: every history of insertions and deletions gives what a sorted list
    gives (contents, order, result codes), never dereferences NULL, lookup is
    exact, and the height is at most 2 log2 (n + 1) + 1. *)
Theorem C25_sorted_multimap : forall (K : Type) (comp : K -> K -> Z) (ops : list (avl_op K)),
  comp_ok comp -> all_legal comp [] ops ->
  exists t, avl_run comp avl_init ops = Some (t, snd (smeans_all comp [] ops))
    /\ entries t = fst (smeans_all comp [] ops)
    /\ (forall k, find comp (root t) k = sfind comp k (entries t))
    /\ 2 ^ (height (root t) / 2) <= Z.of_nat (length (entries t)) + 1.
Proof. intros K comp ops CO L. exact (run_from_init comp CO ops L). Qed.
Print Assumptions C25_sorted_multimap.

Definition ex_ops : list (avl_op Z) :=
  [AIns (mkEntry 1 50) true; AIns (mkEntry 2 30) true; AIns (mkEntry 3 20) true; AIns (mkEntry 4 30) true;
   AIns (mkEntry 5 25) false; AIns (mkEntry 6 30) false; AIns (mkEntry 7 60) true; AIns (mkEntry 8 30) true;
   ADel 2; ADel 1].
Example C25_ex_legal : all_legal comp_etx [] ex_ops.
Proof.
  cbn -[In]. repeat split; cbn; intuition discriminate.
Qed.
Example C25_ex : option_map (fun p => (map eid (entries (fst p)), snd p)) (avl_run comp_etx avl_init ex_ops)
  = Some ([3; 5; 4; 8; 7], [0; 0; 0; 0; 0; -1; 0; 0; 0; 0]).
Proof. vm_compute. reflexivity. Qed.

(** ... and the list is in ascending order. *)
Theorem C25_ascending : forall (K : Type) (comp : K -> K -> Z) (ops : list (avl_op K)),
  comp_ok comp ->
  StronglySorted (fun a b : entry K => comp (ekey a) (ekey b) <= 0) (fst (smeans_all comp [] ops)).
Proof. intros K comp ops CO. exact (sorted_all comp CO ops [] (SSorted_nil _)). Qed.
Print Assumptions C25_ascending.

Example C25_ascending_ex : map ekey (fst (smeans_all comp_etx [] ex_ops)) = [20; 25; 30; 30; 60].
Proof. vm_compute. reflexivity. Qed.

(** C52: the comparison functions used for trees are total orders that call two
    keys equal exactly if they are the same. *)
Theorem C52_ipv4_addresses : forall little,
  comp_ok (ip4cmp little) /\ forall a b, bytes 4 a -> bytes 4 b -> (ip4cmp little a b = 0 <-> a = b).
Proof. intros le. exact (conj (ip4cmp_ok le) (fun a b => ip4cmp_zero le 4 a b)). Qed.
Print Assumptions C52_ipv4_addresses.
Example C52_ipv4_ex : bytes 4 [10; 0; 0; 1] /\ ip4cmp true [10; 0; 0; 1] [10; 0; 0; 2] = -1.
Proof. split; [split; [reflexivity|repeat constructor; lia]|reflexivity]. Qed.

Theorem C52_ipv6_addresses : forall n,
  comp_ok (fun a b : addr n => ip6cmp (abytes a) (abytes b))
  /\ forall a b, length a = n -> length b = n -> (ip6cmp a b = 0 <-> a = b).
Proof. intros n. exact (conj (memcmp_ok n) (fun a b La Lb => memcmp_zero a b (eq_trans La (eq_sym Lb)))). Qed.
Print Assumptions C52_ipv6_addresses.
Example C52_ipv6_ex : ip6cmp [254; 128; 0; 1] [254; 128; 1; 0] = -1.
Proof. reflexivity. Qed.

Theorem C52_prefixes :
  comp_ok comp_ipv4_prefix
  /\ (forall a x b y, bytes 4 a -> bytes 4 b -> (comp_ipv4_prefix (a, x) (b, y) = 0 <-> (a, x) = (b, y)))
  /\ (forall n, comp_ok (fun p q : addr n * Z => comp_ipv6_prefix (abytes (fst p), snd p) (abytes (fst q), snd q)))
  /\ (forall a x b y, length a = length b -> (comp_ipv6_prefix (a, x) (b, y) = 0 <-> (a, x) = (b, y))).
Proof. exact (conj comp_ipv4_prefix_ok (conj comp_ipv4_prefix_zero (conj comp_ipv6_prefix_ok comp_ipv6_prefix_zero))). Qed.
Print Assumptions C52_prefixes.
Example C52_prefixes_ex : comp_ipv4_prefix ([10; 0; 0; 0], 8) ([10; 0; 0; 0], 24) = -1
  /\ comp_ipv6_prefix ([1; 2], 16) ([1; 1], 64) = 1.
Proof. split; reflexivity. Qed.

Theorem C52_costs : comp_ok comp_etx /\ forall a b, comp_etx a b = 0 <-> a = b.
Proof. exact (conj comp_etx_ok comp_etx_zero). Qed.
Print Assumptions C52_costs.
Example C52_costs_ex : comp_etx 1024 4294967295 = -1.
Proof. reflexivity. Qed.

(** C53: all nodes of a network order addresses alike. *)
Theorem C53_same_order_everywhere_refuted :
  exists a b, bytes 4 a /\ bytes 4 b /\ ip4cmp true a b < 0 /\ ip4cmp false a b > 0.
Proof. exact ip4_order_depends. Qed.
Print Assumptions C53_same_order_everywhere_refuted.
