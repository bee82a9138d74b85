(** * C19, C79-C83: sizes beyond which the functions leave their contract *)
From Verif Require Import Lib Model_Utils Model_Containers Model_Sort Model_SortState Model_Crypto Model_Json
  Spec_Queue Spec_PriorityQueue Spec_Map Spec_Json Drive_Queue Drive_PriorityQueue Drive_Map
  Proof_Limits Proof_Limits2.

(** ** C79 The sizes up to which the containers keep their contract, exactly *)

(** a queue is a FIFO for all buffers and operations exactly when the offset of its last
    slot fits in 32 bits *)
Theorem C79_queue : forall cap es, 0 < cap < 2 ^ 32 -> 0 < es < 2 ^ 32 ->
  (forall buf q0 ops, cap * es <= len buf -> Forall (qop_ok es) ops ->
     exists q1 q2, Queue_init (Some q0) cap es (Some buf) = Ok (true, Some q1) /\
       queue_run ops (Some q1) = Ok ((fifo cap es ops []).1, Some q2))
  <-> (cap - 1) * es < 2 ^ 32.
Proof. exact queue_limit. Qed.
Print Assumptions C79_queue.
Theorem C79_priority_queue : forall cap es, 0 < cap < 2 ^ 32 -> 0 < es < 2 ^ 32 ->
  (forall it q0 ops, cap <= len (it_priority it) -> cap * es <= len (it_element it) ->
     Forall (pqop_ok es) ops ->
     exists q1 q2, PriorityQueue_init (Some q0) cap es (Some it) = Ok (true, Some q1) /\
       pq_run ops (Some q1) = Ok ((prio cap es ops []).1, Some q2))
  <-> (cap - 1) * es < 2 ^ 32.
Proof. exact pq_limit. Qed.
Print Assumptions C79_priority_queue.
(** a map: the offsets are signed; there are at least as many keys as places *)
Theorem C79_map : forall mx ks vs, 0 < mx < 2 ^ 31 -> 0 < ks < 2 ^ 31 -> 0 < vs < 2 ^ 31 -> mx <= 256 ^ ks ->
  (forall keys vals m0 ops, mx * ks <= len keys -> mx * vs <= len vals -> Forall (mop_ok ks vs) ops ->
     exists m1 m2, Map_init (Some m0) (Some keys) (Some vals) ks vs mx = Ok (true, Some m1) /\
       map_run ops (Some m1) = Ok ((map_ops mx ks vs ops ∅).1, Some m2))
  <-> (mx - 1) * ks < 2 ^ 31 /\ (mx - 1) * vs < 2 ^ 31.
Proof. exact map_limit. Qed.
Print Assumptions C79_map.
(* sizes on both sides of each limit *)
Example C79_ex :
  (65537 - 1) * 65535 < 2 ^ 32 /\ ~ (65537 - 1) * 65536 < 2 ^ 32 /\
  (3 - 1) * (2 ^ 30 - 1) < 2 ^ 31 /\ ~ (3 - 1) * 2 ^ 30 < 2 ^ 31 /\ 3 <= 256 ^ 2.
Proof. lia. Qed.

(** ** C80 A map entry beyond 2 GiB *)

(** the key is absent and there is a free place *)
Theorem C80_map_insert : forall m key v d, Map_getValue (Some m) key d = Ok (false, d) ->
  m_current_size m <> m_max_map_size m ->
  2 ^ 31 <= m_current_size m * m_key_size m \/ 2 ^ 31 <= m_current_size m * m_value_size m ->
  exists k, Map_insert (Some m) key v = UB k.
Proof. exact map_insert_ub. Qed.
Print Assumptions C80_map_insert.
(* an impossible structure shows that the hypotheses can be met by a small one *)
Example C80_ex :
  let m := mkMap [1; 2; 3; 4] [] 2 (2 ^ 30) 5 2 in
  Map_getValue (Some m) [5; 6] [] = Ok (false, []) /\ 2 ^ 31 <= 2 * 2 ^ 30 /\
  Map_insert (Some m) [5; 6] [0] = UB OutOfBounds.
Proof. ex. Qed.

(** ** C81 ChaCha20 with a key or a nonce that is too short *)

Theorem C81_short : forall m p n key nonce inc r, 0 < n -> len key < 32 \/ len nonce < 12 ->
  Chacha20_crypt m p n key nonce inc r = UB OutOfBounds.
Proof. exact crypt_short. Qed.
Print Assumptions C81_short.
(** an empty message is the only one for which they are not read *)
Theorem C81_empty : forall m p key nonce inc r, Chacha20_crypt m p 0 key nonce inc r = Ok m.
Proof. exact crypt_nothing. Qed.
Print Assumptions C81_empty.
Example C81_ex :
  Chacha20_crypt [1] 0 1 (replicate 32 0) (replicate 11 0) 0 0 = UB OutOfBounds /\
  Chacha20_crypt [1] 0 1 (replicate 31 0) (replicate 12 0) 0 0 = UB OutOfBounds /\
  Chacha20_crypt [1] 0 1 (replicate 32 0) (replicate 12 0) 0 0 = Ok [119] /\
  Chacha20_crypt [1] 0 0 [] [] 0 0 = Ok [1].
Proof. ex. Qed.

(** ** C82 The JSON search looks at (n - |key|) mod 2^32 positions *)

Theorem C82_window : forall b n k v mx s, is_cstring k s -> n = len b -> n < 2 ^ 64 -> len s < n ->
  (forall i, 0 <= i < (n - len s) mod 2 ^ 32 -> ~ s `prefix_of` drop (Z.to_nat i) b) ->
  Json_findByKey b n k v mx = Ok (false, v).
Proof. exact find_window. Qed.
Print Assumptions C82_window.
(** so it can miss a key that is there *)
Theorem C82_window_refuted : exists b k v, len b = 2 ^ 32 + 2 /\ is_cstring k [97; 98] /\
  has_value b [97; 98] [120] /\ Json_findByKey b (len b) k v (len v) = Ok (false, v).
Proof. exact find_window_refuted. Qed.
Print Assumptions C82_window_refuted.
Example C82_ex :
  is_cstring [97; 98; 0] [97; 98] /\ Json_findByKey [97; 99; 34; 34; 34; 97; 98] 7 [97; 98; 0] [5] 1 = Ok (false, [5]) /\
  (7 - 2) mod 2 ^ 32 = 5.
Proof. split; [exists []; split; [done|repeat constructor; lia]|ex]. Qed.

(** ** C83 The sorts beyond 2 GiB *)

(** whatever the comparator and the memory *)
Theorem C83_bubble : forall cmp m base n es, 2 <= n < 2 ^ 31 -> 2 ^ 31 <= (n - 1) * es ->
  exists k, BubbleSort_sort cmp m base n es = UB k.
Proof. exact bubble_limit. Qed.
Print Assumptions C83_bubble.
Theorem C83_selection : forall cmp m base n es, 2 <= n < 2 ^ 31 -> 2 ^ 31 <= (n - 1) * es ->
  exists k, SelectionSort_sort cmp m base n es = UB k.
Proof. exact selection_limit. Qed.
Print Assumptions C83_selection.
Theorem C83_insertion : forall cmp m base n es, 2 <= n < 2 ^ 31 -> 2 ^ 31 <= (n - 1) * es ->
  forall static, exists k, InsertionSort_sort cmp m static base n es = UB k.
Proof. exact insertion_limit. Qed.
Print Assumptions C83_insertion.
Theorem C83_heap : forall cmp m base n es, 2 <= n < 2 ^ 31 -> 2 ^ 31 <= (n - 1) * es ->
  exists k, HeapSort_sort cmp m base n es = UB k.
Proof. exact heap_limit. Qed.
Print Assumptions C83_heap.
Example C83_ex :
  2 ^ 31 <= (3 - 1) * 2 ^ 30 /\
  SelectionSort_sort (fun _ _ => false) [1; 2; 3] 0 3 (2 ^ 30) = UB OutOfBounds.
Proof. ex. Qed.
