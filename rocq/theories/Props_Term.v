(** * C78: every function ends, whatever its arguments *)
From Coq Require Import String.
From Verif Require Import Lib Model_Utils Model_Base64 Model_Containers Model_Sort Model_SortState
  Model_Crypto Model_Crc Model_CrcVariants Model_Json Drive_Crc Proof_SortEnd Proof_Term.

(** The outcome [Diverge] means that a loop has not come to its end.  The arguments are
    arbitrary: short memories, wrong sizes, null pointers.  Only the ranges of the C types are
    assumed, and only where they matter. *)

Theorem C78_utils : forall sc o n e r, is_byte n ->
  Utils_stringToUint32 sc o n <> Diverge /\ Utils_quickUint32Pow10 e r <> Diverge.
Proof. exact (fun sc o n e r H => conj (string_nd sc o n H) (pow10_nd e r)). Qed.
Print Assumptions C78_utils.
Theorem C78_serialize : forall o p v,
  Utils_serialize8 o p v <> Diverge /\ Utils_serialize16BE o p v <> Diverge /\
  Utils_serialize24BE o p v <> Diverge /\ Utils_serialize32BE o p v <> Diverge /\
  Utils_serialize16LE o p v <> Diverge /\ Utils_serialize24LE o p v <> Diverge /\
  Utils_serialize32LE o p v <> Diverge.
Proof. exact ser_nd. Qed.
Print Assumptions C78_serialize.
Theorem C78_deserialize : forall o p,
  Utils_deserialize8 o p <> Diverge /\ Utils_deserialize16BE o p <> Diverge /\
  Utils_deserialize24BE o p <> Diverge /\ Utils_deserialize32BE o p <> Diverge /\
  Utils_deserialize16LE o p <> Diverge /\ Utils_deserialize24LE o p <> Diverge /\
  Utils_deserialize32LE o p <> Diverge.
Proof. exact des_nd. Qed.
Print Assumptions C78_deserialize.
Theorem C78_blob : forall a p b q n,
  Utils_serializeBlobBE a p b q n <> Diverge /\ Utils_deserializeBlobBE a p b q n <> Diverge /\
  Utils_serializeBlobLE a p b q n <> Diverge /\ Utils_deserializeBlobLE a p b q n <> Diverge.
Proof. exact blob_nd. Qed.
Print Assumptions C78_blob.
Theorem C78_bits : forall d n b o,
  BitManipulation_reflect d n <> Diverge /\ BitManipulation_bitSet d n b <> Diverge /\
  BitManipulation_setBit d n o <> Diverge /\ BitManipulation_clearBit d n o <> Diverge /\
  BitManipulation_toggleBit d n o <> Diverge /\ BitManipulation_rotl32 d n <> Diverge.
Proof. exact bits_nd. Qed.
Print Assumptions C78_bits.
Theorem C78_base64 : forall x n y mx,
  Base64_encode x n y mx <> Diverge /\ Base64_decode x n y mx <> Diverge.
Proof. exact (fun x n y mx => conj (encode_nd x n y mx) (decode_nd x n y mx)). Qed.
Print Assumptions C78_base64.
Theorem C78_queue : forall q c e b el,
  Queue_init q c e b <> Diverge /\ Queue_full q <> Diverge /\ Queue_empty q <> Diverge /\
  Queue_enqueue q el <> Diverge /\ Queue_dequeue q el <> Diverge /\ Queue_front q el <> Diverge /\
  Queue_rear q el <> Diverge.
Proof. exact queue_nd. Qed.
Print Assumptions C78_queue.
Theorem C78_priority_queue : forall q c e it el,
  PriorityQueue_init q c e it <> Diverge /\ PriorityQueue_empty q <> Diverge /\
  PriorityQueue_enqueue q it <> Diverge /\ PriorityQueue_dequeue q el <> Diverge.
Proof. exact pq_nd. Qed.
Print Assumptions C78_priority_queue.
Theorem C78_map : forall m ks vs k v mx key value,
  Map_init m ks vs k v mx <> Diverge /\ Map_insert m key value <> Diverge /\
  Map_getValue m key value <> Diverge.
Proof. exact map_nd. Qed.
Print Assumptions C78_map.
Theorem C78_scheduler : forall W (exec : Z -> W * list SchedulerTask_t -> W * list SchedulerTask_t) w t n x,
  is_u32 n ->
  Scheduler_init t n <> Diverge /\ Scheduler_addTask t n x <> Diverge /\ Scheduler_run exec w t n <> Diverge.
Proof. exact (fun W exec w t n x H => conj (sched_init_nd t n) (conj (addTask_nd t n x H) (sched_run_nd exec w t n))). Qed.
Print Assumptions C78_scheduler.

(** for a comparator without state this is C35 *)
Theorem C78_sorts_with_state : forall T (cmp : T -> list Z -> list Z -> T * bool) t m static base n es,
  BubbleSort_state cmp t m base n es <> Diverge /\ SelectionSort_state cmp t m base n es <> Diverge /\
  InsertionSort_state cmp t m static base n es <> Diverge /\ HeapSort_state cmp t m base n es <> Diverge.
Proof. exact (fun T cmp t m static base n es => conj (bubble_state_nd cmp t m base n es)
     (conj (selection_state_nd cmp t m base n es)
        (conj (insertion_state_nd cmp t m static base n es) (heap_state_nd cmp t m base n es)))). Qed.
Print Assumptions C78_sorts_with_state.
Theorem C78_crypto : forall sc m s k n p nonce inc r,
  CaesarCipher_encrypt m s <> Diverge /\ CaesarCipher_decrypt m s <> Diverge /\
  VernamCipher_encrypt m k n <> Diverge /\ VernamCipher_decrypt sc m k n <> Diverge /\
  Chacha20_crypt m p n k nonce inc r <> Diverge.
Proof. exact (fun sc m s k n p nonce inc r => conj (proj1 (caesar_nd m s)) (conj (proj2 (caesar_nd m s))
     (conj (proj1 (vernam_nd sc m k n)) (conj (proj2 (vernam_nd sc m k n)) (crypt_nd m p n k nonce inc r))))). Qed.
Print Assumptions C78_crypto.
Theorem C78_crc_tables : forall p t,
  Crc8Base_tableCalculator p t <> Diverge /\ Crc16Base_tableCalculator p t <> Diverge /\
  Crc32Base_tableCalculator p t <> Diverge.
Proof. exact calc_nd. Qed.
Print Assumptions C78_crc_tables.
Theorem C78_crc : forall V d n f l, In V crc_variants -> run V d n f l <> Diverge.
Proof. exact crc_nd. Qed.
Print Assumptions C78_crc.
Theorem C78_json_build : forall b n k v,
  Json_startString b n <> Diverge /\ Json_addData b n k v <> Diverge /\ Json_endString b n <> Diverge.
Proof. exact json_build_nd. Qed.
Print Assumptions C78_json_build.

(** the search ends when the size it is told, or the object itself, is below 4 GiB *)
Theorem C78_json_find : forall b n k v mx, n < 2 ^ 32 \/ len b < 2 ^ 32 -> is_u64 n -> is_u64 mx ->
  Json_findByKey b n k v mx <> Diverge.
Proof. exact find_nd. Qed.
Print Assumptions C78_json_find.
(** beyond that it may run for ever: the index is 32 bits wide and goes round *)
Theorem C78_json_find_refuted : exists b n k v mx,
  n = len b /\ is_cstring k [97; 98] /\ len v = mx /\ Json_findByKey b n k v mx = Diverge.
Proof. exact find_may_diverge. Qed.
Print Assumptions C78_json_find_refuted.

(* sizes and memories that do not fit each other *)
Example C78_ex :
  is_byte 5 /\ Utils_stringToUint32 true (str "1") 5 = UB OutOfBounds /\
  Base64_decode (str "QUJ") 5 [0] 1 = Ok (1, [0]) /\
  Queue_enqueue None None = Ok (false, None) /\
  Map_insert (Some (mkMap [] [] 0 1 5 3)) [] [7] = UB OutOfBounds /\
  is_u32 (2 ^ 32 - 1) /\ Scheduler_addTask [mkTask None false] (2 ^ 32 - 1) (mkTask (Some 1) true)
    = Ok (true, [mkTask (Some 1) true]) /\
  HeapSort_state (fun n _ _ => (n + 1, true)) 0 [1; 2; 3; 4] 0 4 1 = UB OutOfBounds /\
  is_u64 100 /\ Json_findByKey (str "{") 100 (cstr "k") [0] 1 = UB OutOfBounds.
Proof. ex. Qed.
