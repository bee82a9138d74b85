(** * C25-C28: map.c *)
From stdpp Require Import gmap.
From Verif Require Import Lib Model_Containers Spec_Queue Spec_Map Drive_Map Proof_Map.

(** ** C25 The latest value stored under a key *)

Theorem C25_behaves : forall mx ks vs keys vals m0 ops,
  map_sizes mx ks vs keys vals -> Forall (mop_ok ks vs) ops ->
  exists m1 m2, Map_init (Some m0) (Some keys) (Some vals) ks vs mx = Ok (true, Some m1) /\
    map_run ops (Some m1) = Ok ((map_ops mx ks vs ops ∅).1, Some m2).
Proof. exact map_behaves. Qed.
Print Assumptions C25_behaves.
Example C25_behaves_ex :
  let ops := [GetValue [1] [0; 0]; Insert [1] [5; 6]; Insert [2] [7; 8]; Insert [3] [9; 9];
              Insert [1] [3; 4]; GetValue [1] [0; 0; 0]; GetValue [2] [0; 0]; GetValue [3] [0; 0]] in
  map_sizes 2 1 2 [0; 0] [0; 0; 0; 0] /\ Forall (mop_ok 1 2) ops /\
  (let! '(rs, _) := map_run ops (Some (mkMap [0; 0] [0; 0; 0; 0] 1 2 2 0)) in Ok rs)
  = Ok [(false, [0; 0]); (true, [5; 6]); (true, [7; 8]); (false, [9; 9]); (true, [3; 4]);
        (true, [3; 4; 0]); (true, [7; 8]); (false, [0; 0])].
Proof. unfold map_sizes, mop_ok. ex. Qed.
Theorem C25_getValue : forall mx ks vs keys vals ops m,
  map_sizes mx ks vs keys vals -> Forall (mop_ok ks vs) ops ->
  map_after mx ks vs keys vals ops m ->
  let M := (map_ops mx ks vs ops ∅).2 in
  forall key d, ks <= len key -> vs <= len d ->
  Map_getValue (Some m) key d
  = match M !! take (Z.to_nat ks) key with
    | Some v => Ok (true, copied v d) | None => Ok (false, d) end.
Proof. exact mreach_get. Qed.
Print Assumptions C25_getValue.
(** the example map is reachable *)
Example C25_getValue_ex :
  map_after 2 1 2 [0; 0] [0; 0; 0; 0] [Insert [1] [5; 6]; Insert [2] [7; 8]]
    (mkMap [1; 2] [5; 6; 7; 8] 1 2 2 2) /\
  Map_getValue (Some (mkMap [1; 2] [5; 6; 7; 8] 1 2 2 2)) [2] [0; 0; 3] = Ok (true, [7; 8; 3]).
Proof.
  split; [|ex]. exists (mkMap [] [] 0 0 0 0). eexists _, _. split; [reflexivity|].
  vm_compute. reflexivity.
Qed.

(** ** C26 Capacity, update in place, no duplicates *)

(** success exactly if the key is present or there is room; nothing changes on failure *)
Theorem C26_insert : forall mx ks vs keys vals ops m,
  map_sizes mx ks vs keys vals -> Forall (mop_ok ks vs) ops ->
  map_after mx ks vs keys vals ops m ->
  let M := (map_ops mx ks vs ops ∅).2 in
  forall key v, ks <= len key -> vs <= len v ->
  let k := take (Z.to_nat ks) key in
  let ok := bool_decide (is_Some (M !! k)) || (Z.of_nat (size M) <? mx) in
  exists m', Map_insert (Some m) key v = Ok (ok, Some m') /\
    (ok = false -> m' = m) /\
    (ok = true -> map_after mx ks vs keys vals (ops ++ [Insert key v]) m' /\
       (map_ops mx ks vs (ops ++ [Insert key v]) ∅).2 = <[k := take (Z.to_nat vs) v]> M) /\
    forall key' d, ks <= len key' -> vs <= len d ->
      Map_getValue (Some m') key' d
      = if ok && bool_decide (take (Z.to_nat ks) key' = k)
        then Ok (true, copied (take (Z.to_nat vs) v) d)
        else Map_getValue (Some m) key' d.
Proof. exact mreach_insert. Qed.
Print Assumptions C26_insert.
Theorem C26_count : forall mx ks vs keys vals ops m,
  map_sizes mx ks vs keys vals -> Forall (mop_ok ks vs) ops ->
  map_after mx ks vs keys vals ops m ->
  let M := (map_ops mx ks vs ops ∅).2 in
  m_current_size m = Z.of_nat (size M) /\ Z.of_nat (size M) <= mx /\
  forall i j, 0 <= i < j -> j < m_current_size m ->
    slice (m_keys m) (i * ks) ks <> slice (m_keys m) (j * ks) ks.
Proof. exact mreach_count. Qed.
Print Assumptions C26_count.
(** full: a present key is updated, a new one rejected *)
Example C26_ex :
  Map_insert (Some (mkMap [1; 2] [5; 6; 7; 8] 1 2 2 2)) [1] [3; 4]
  = Ok (true, Some (mkMap [1; 2] [3; 4; 7; 8] 1 2 2 2)) /\
  Map_insert (Some (mkMap [1; 2] [5; 6; 7; 8] 1 2 2 2)) [3] [3; 4]
  = Ok (false, Some (mkMap [1; 2] [5; 6; 7; 8] 1 2 2 2)).
Proof. ex. Qed.

(** ** C27 Independence and memory *)

Theorem C27_independent : forall mx ks vs keys vals ops m,
  map_sizes mx ks vs keys vals -> Forall (mop_ok ks vs) ops ->
  map_after mx ks vs keys vals ops m ->
  forall key v key' d, ks <= len key -> vs <= len v -> ks <= len key' -> vs <= len d ->
  take (Z.to_nat ks) key' <> take (Z.to_nat ks) key ->
  exists s m', Map_insert (Some m) key v = Ok (s, Some m') /\
    Map_getValue (Some m') key' d = Map_getValue (Some m) key' d.
Proof. exact mreach_independent. Qed.
Print Assumptions C27_independent.
Theorem C27_memory : forall mx ks vs keys vals ops m,
  map_sizes mx ks vs keys vals -> Forall (mop_ok ks vs) ops ->
  map_after mx ks vs keys vals ops m ->
  m_max_map_size m = mx /\ m_key_size m = ks /\ m_value_size m = vs /\
  len (m_keys m) = len keys /\ len (m_values m) = len vals /\
  drop (Z.to_nat (mx * ks)) (m_keys m) = drop (Z.to_nat (mx * ks)) keys /\
  drop (Z.to_nat (mx * vs)) (m_values m) = drop (Z.to_nat (mx * vs)) vals.
Proof. exact mreach_memory. Qed.
Print Assumptions C27_memory.
(** two bytes of storage beyond the map are left alone *)
Example C27_ex :
  map_sizes 2 1 1 [0; 0; 8] [0; 0; 9] /\
  map_run [Insert [1] [5]; Insert [2] [6]; Insert [1] [7]; GetValue [2] [0]]
    (Some (mkMap [0; 0; 8] [0; 0; 9] 1 1 2 0))
  = Ok ([(true, [5]); (true, [6]); (true, [7]); (true, [6])],
        Some (mkMap [1; 2; 8] [7; 6; 9] 1 1 2 2)).
Proof. unfold map_sizes. ex. Qed.

(** ** C28 Arguments *)

Theorem C28_init_rejects : forall map keys vals ks vs mx,
  keys = None \/ vals = None \/ ks = 0 \/ vs = 0 \/ mx = 0 ->
  Map_init map keys vals ks vs mx = Ok (false, map).
Proof. exact minit_rejects. Qed.
Print Assumptions C28_init_rejects.
Theorem C28_init_accepts : forall m0 keys vals ks vs mx,
  ks <> 0 -> vs <> 0 -> mx <> 0 ->
  Map_init (Some m0) (Some keys) (Some vals) ks vs mx
  = Ok (true, Some (mkMap keys vals ks vs mx 0)).
Proof. exact minit_accepts. Qed.
Print Assumptions C28_init_accepts.
Theorem C28_init_null : forall keys vals ks vs mx,
  ks <> 0 -> vs <> 0 -> mx <> 0 ->
  Map_init None (Some keys) (Some vals) ks vs mx = UB NullDeref.
Proof. exact minit_null. Qed.
Print Assumptions C28_init_null.
Theorem C28_null_map : forall key value,
  Map_insert None key value = Ok (false, None) /\ Map_getValue None key value = Ok (false, value).
Proof. exact mnull. Qed.
Print Assumptions C28_null_map.
(** a negative key size is accepted, and then every insert is undefined *)
Theorem C28_negative : forall keys vals ks vs mx key value,
  - 2 ^ 31 <= ks < 0 -> vs <> 0 -> mx <> 0 -> len keys < 2 ^ 63 ->
  Map_insert (Some (mkMap keys vals ks vs mx 0)) key value = UB OutOfBounds.
Proof. exact mnegative. Qed.
Print Assumptions C28_negative.
Theorem C28_usable_refuted :
  exists m0 keys vals ks vs mx m key value,
    Map_init (Some m0) (Some keys) (Some vals) ks vs mx = Ok (true, Some m) /\
    Map_insert (Some m) key value = UB OutOfBounds.
Proof. exact maccept_usable_refuted. Qed.
Print Assumptions C28_usable_refuted.
Theorem C28_negative_capacity_refuted :
  exists m0 keys vals ks vs mx m m1 m2,
    mx < 0 /\ 0 < ks /\ 0 < vs /\
    Map_init (Some m0) (Some keys) (Some vals) ks vs mx = Ok (true, Some m) /\
    Map_insert (Some m) [1] [1] = Ok (true, Some m1) /\
    Map_insert (Some m1) [2] [2] = Ok (true, Some m2) /\
    Map_insert (Some m2) [3] [3] = UB OutOfBounds.
Proof. exact mnegative_capacity_refuted. Qed.
Print Assumptions C28_negative_capacity_refuted.
Example C28_ex :
  Map_init (Some (mkMap [] [] 0 0 0 0)) (Some [0]) (Some [0]) 1 0 1
  = Ok (false, Some (mkMap [] [] 0 0 0 0)) /\
  Map_init (Some (mkMap [] [] 0 0 0 0)) (Some [0]) (Some [0]) 1 1 1
  = Ok (true, Some (mkMap [0] [0] 1 1 1 0)).
Proof. ex. Qed.
