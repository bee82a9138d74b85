(** * The hand-written model of [Json_findByKey] against the C text *)
From Verif Require Import CSem Lib CLang C_Json Model_Json Proof_SortEnd Proof_Term
  Refine Refine_Cipher Refine_Sort Refine_Json.

Section json.
  Context {W : Type} (sc : bool)
          (ext : Z -> list val -> mem -> W -> outcome (val * mem * W)) (fuel : nat).
  Local Notation run f := (call sc ext fuel f).
  Local Notation str_at b := (VPtr (TInt IChar) (BObj b) 0).
  Implicit Types (m : mem) (w : W) (o : list Z).

  Lemma ref_Json_findByKey m w b o n b1 k b2 v mx :
    m !! b = Some (ints 8 o) -> m !! b1 = Some (ints 8 k) -> m !! b2 = Some (ints 8 v) ->
    b <> b1 -> b <> b2 -> b1 <> b2 -> is_u64 n -> is_u64 mx ->
    bytes o -> len k < 2 ^ 64 -> len v < 2 ^ 64 ->
    Json_findByKey o n k v mx <> Diverge -> (S (length o) < fuel)%nat ->
    run c_Json_findByKey [str_at b; VInt U64 n; str_at b1; str_at b2; VInt U64 mx] m w
    = let! '(r, v) := Json_findByKey o n k v mx in Ok (VInt IBool (b2z r), <[b2 := ints 8 v]> m, w).
  Proof.
    intros Hb Hb1 Hb2 Hn1 Hn2 Hn3 Hn Hmx Hbo Hlk Hlv Hnd Hf. revert Hnd.
    unfold c_Json_findByKey, Json_findByKey. bounds. intros Hnd. go.
    2:{ rewrite loop_skip; [|lia|go_body]. cbn [cwhile]. change (0 <? 0) with false. cbn [bind].
        go. cbn [bind b2z]. by rewrite list_insert_id. }
    rewrite (u64_small (n - n0)) by lia.
    rewrite ?E in Hnd. cbn [bind] in Hnd. rewrite ?Heqb0 in Hnd. revert Hnd.
    set (ms := u32 (n - n0)). intros Hnd. assert (0 <= ms < 2 ^ 32) by (unfold ms; rng).
    clearbody ms.
    sim_while (fun '(i, s) => ([str_at b; VInt U64 n; str_at b1; str_at b2; VInt U64 mx;
                                VInt IBool (b2z s); VInt U64 n0; VInt U32 ms; VInt U32 i], m, w))
      (fun '(i, s) => ([str_at b; VInt U64 n; str_at b1; str_at b2; VInt U64 mx;
                                VInt IBool (b2z s); VInt U64 n0; VInt U32 ms; VInt U32 i], m, w))
      (fun '(i, s) => 0 <= i <= len o).
    - done.
    - pose proof (len_nonneg o). lia.
    - lia.
    - intros E'. apply Hnd. rewrite E'. done.
    - intros [i s] Hi Hc. apply Z.ltb_lt in Hc. go_body.
    - intros [i s] Hi Hc. go_body.
    - intros [i s] [i' s'] Hi Hc E'. apply bind_ok_inv in E' as ([] & Ee & E').
      + by apply bind_ok_inv in E' as (? & ? & ?).
      + apply strncmp_false_inv in Ee. injection E' as <- <-. rng.
    - both. destruct b0.
      2:{ go. cbn [bind b2z]. by rewrite list_insert_id. }
      go. cbn [bind] in *. set (start := u32 (z + _)) in *.
      assert (0 <= start < 2 ^ 32) by (unfold start; rng). clearbody start.
      sim_while (fun i => ([str_at b; VInt U64 n; str_at b1; str_at b2; VInt U64 mx;
                             VInt IBool 0; VInt U64 n0; VInt U32 ms; VInt U32 i], m, w))
        (fun i => ([str_at b; VInt U64 n; str_at b1; str_at b2; VInt U64 mx;
                             VInt IBool 0; VInt U64 n0; VInt U32 ms; VInt U32 i], m, w))
        (fun i => 0 <= i < 2 ^ 32).
      + done.
      + done.
      + lia.
      + intros E'. apply Hnd. rewrite E'. done.
      + intros i Hi Hc. apply Z.ltb_lt in Hc. go_body.
      + intros i Hi Hc. apply Z.ltb_ge in Hc. go_body.
      + intros i i' Hi Hc E'. apply bind_ok_inv in E' as (c & Ec & E').
        destruct (c =? 34); [done|]. injection E' as <-. rng.
      + both. go. cbn [bind] in *. set (next := u32 (r + _)) in *.
        assert (0 <= next < 2 ^ 32) by (unfold next; rng). clearbody next.
        sim_while (fun '(v, l, i, s) => ([str_at b; VInt U64 n; str_at b1; str_at b2; VInt U64 mx;
                             VInt IBool (b2z s); VInt U64 n0; VInt U32 ms; VInt U32 i; VInt U64 l],
                             <[b2 := ints 8 v]> m, w))
          (fun '(v, l, i, s) => ([str_at b; VInt U64 n; str_at b1; str_at b2; VInt U64 mx;
                             VInt IBool (b2z s); VInt U64 n0; VInt U32 ms; VInt U32 i; VInt U64 l],
                             <[b2 := ints 8 v]> m, w))
          (fun '(v, l, i, s) => 0 <= i < 2 ^ 32 /\ 0 <= l < 2 ^ 64).
        * cbn. by rewrite list_insert_id.
        * lia.
        * lia.
        * intros E'. apply Hnd. rewrite E'. done.
        * intros [[[v' l] i] s] [Hi Hl] Hc. apply andb_true_iff in Hc as [Hc1 Hc2].
          apply Z.ltb_lt in Hc1, Hc2. go_body.
          rewrite store_ok by lia. by destruct sc.
        * intros [[[v' l] i] s] [Hi Hl] Hc. apply andb_false_iff in Hc. go_body.
        * intros [[[v' l] i] s] [[[v2 l2] i2] s2] [Hi Hl] Hc E'.
          apply bind_ok_inv in E' as (c & Ec & E'). apply bind_ok_inv in E' as (v3 & Ev & E').
          destruct (c =? 34); [by apply bind_ok_inv in E' as (? & ? & ?)|].
          injection E' as <- <- <- <-. rng.
        * both. go.
  Qed.
End json.
