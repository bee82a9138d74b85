(** * Proofs about ChaCha20, continued: whole messages *)
From Verif Require Import CSem Lib Model_Utils Model_Crypto Spec_ChaCha Proof_ChaCha.

Lemma len_imap (f : nat -> Z -> Z) l : len (imap f l) = len l.
Proof. unfold len. by rewrite imap_length. Qed.
Lemma get_imap (f : nat -> Z -> Z) l i : 0 <= i < len l ->
  get (imap f l) i = f (Z.to_nat i) (get l i).
Proof.
  intros Hi. apply get_lookup; [lia|]. rewrite list_lookup_imap, lookup_get by done. done.
Qed.

Lemma key_stream_byte key nonce inc i : is_byte (key_stream key nonce inc i).
Proof.
  unfold key_stream. rewrite nth_get by (rewrite len_block; lia).
  apply (Forall_get _ _ _ (bytes_block _ _ _)). rewrite len_block. lia.
Qed.

Section crypt.
  Context (key nonce : list Z) (inc : Z).
  Context (Hk : bytes key) (Lk : 32 <= len key) (Hn : bytes nonce) (Ln : 12 <= len nonce).
  Context (m : list Z) (p r n : Z) (Hb : bytes m).
  Context (Hp : 0 <= p) (Hr : 0 <= r) (Hn0 : 0 <= n < 2 ^ 32).
  Context (Hpn : p + n <= len m) (Hrn : r + n <= len m).
  Context (Hov : r <= p \/ p + n <= r).

  (** the first [k] bytes are done *)
  Definition done_to (k : Z) (m' : list Z) : Prop :=
    len m' = len m /\
    forall i, 0 <= i < len m ->
      get m' i = if (r <=? i) && (i <? r + k)
                 then Z.lxor (get m (p + (i - r))) (key_stream key nonce inc (i - r))
                 else get m i.

  Lemma step_ok ks j i m' :
    ks = chacha20_block key (u32 (j + inc)) nonce ->
    0 <= j -> 0 <= i < 64 -> 64 * j + i < n -> done_to (64 * j + i) m' ->
    exists m'',
      (let k := u32 (u32 (j * BLOCK_SIZE) + i) in
       let! a := load m' (p + k) in
       let! b := load ks i in
       store m' (r + k) (u8 (Z.lxor a b))) = Ok m'' /\ done_to (64 * j + i + 1) m''.
  Proof.
    intros -> Hj Hi Hji [HL HG]. unfold BLOCK_SIZE. cbn zeta.
    rewrite (u32_small (j * 64)) by lia. rewrite u32_small by lia.
    remember (64 * j + i) as k eqn:Ek. replace (j * 64 + i) with k by lia.
    rewrite load_ok by lia. cbn [bind]. rewrite load_ok by (rewrite len_block; lia). cbn [bind].
    rewrite (HG (p + k)) by lia.
    replace ((r <=? p + k) && (p + k <? r + k)) with false by lia.
    assert (get (chacha20_block key (u32 (j + inc)) nonce) i = key_stream key nonce inc k) as Eks.
    { unfold key_stream. rewrite get_nth by (rewrite len_block; lia).
      replace (k mod 64) with i by lia. replace (k / 64) with j by lia.
      unfold u32. by rewrite (Z.add_comm j inc). }
    rewrite Eks. pose proof (key_stream_byte key nonce inc k) as HB.
    pose proof (Forall_get _ _ (p + k) Hb ltac:(lia)) as HB'.
    rewrite u8_small by (apply lxor_bound; [lia|exact HB'|exact HB]).
    rewrite store_ok by lia. eexists. split; [reflexivity|].
    split; [by rewrite len_insert|]. intros q Hq. rewrite get_insert by lia.
    destruct (Z.eqb_spec (r + k) q) as [<-|Hqn].
    - replace ((r <=? r + k) && (r + k <? r + (k + 1))) with true by lia.
      by replace (r + k - r) with k by lia.
    - rewrite HG by lia. replace ((r <=? q) && (q <? r + (k + 1)))
        with ((r <=? q) && (q <? r + k)) by lia. done.
  Qed.

  Lemma crypt_done : exists m',
    Chacha20_crypt m p n key nonce inc r = Ok m' /\ done_to n m'.
  Proof.
    unfold Chacha20_crypt. cbn zeta. change (n / BLOCK_SIZE) with (n / 64).
    change (n mod BLOCK_SIZE) with (n mod 64).
    assert (forall c, is_u32 (u32 c)) as H32 by (intros; apply u32_range).
    for_rule (fun j m' => done_to (64 * j) m') m1 H1.
    - apply Z.div_pos; lia.
    - split; [done|]. intros i Hi. by replace ((r <=? i) && (i <? r + 64 * 0)) with false by lia.
    - intros j m' Hj HD. cbv beta in HD. rewrite block_ok by done. cbn [bind].
      for_rule (fun i m'' => done_to (64 * j + i) m'') m2 H2.
      + done.
      + by rewrite Z.add_0_r.
      + intros i m'' Hi HD'. replace (64 * j + (i + 1)) with (64 * j + i + 1) by lia.
        eapply step_ok; try done; change BLOCK_SIZE with 64 in *; lia.
      + eexists. split; [reflexivity|]. cbv beta.
        replace (64 * (j + 1)) with (64 * j + BLOCK_SIZE); [done|]. unfold BLOCK_SIZE. lia.
    - cbn [bind]. destruct (Z.eqb_spec (n mod 64) 0) as [E|E]; cbn [negb].
      + eexists. split; [reflexivity|]. by replace n with (64 * (n / 64)) by lia.
      + rewrite block_ok by done. cbn [bind].
        for_rule (fun i m'' => done_to (64 * (n / 64) + i) m'') m2 H2.
        * lia.
        * by rewrite Z.add_0_r.
        * intros i m'' Hi HD'. replace (64 * (n / 64) + (i + 1)) with (64 * (n / 64) + i + 1) by lia.
          eapply step_ok; try done; lia.
        * eexists. split; [reflexivity|].
          by replace n with (64 * (n / 64) + n mod 64) at 1 by lia.
  Qed.

  Lemma crypt_ok : Chacha20_crypt m p n key nonce inc r
    = Ok (write m r (chacha20 key nonce inc (slice m p n))).
  Proof.
    destruct crypt_done as (m' & -> & HL & HG). f_equal.
    assert (len (chacha20 key nonce inc (slice m p n)) = n) as HC.
    { unfold chacha20. rewrite len_imap, len_slice by lia. done. }
    apply get_ext.
    - rewrite len_write; lia.
    - intros i Hi. rewrite HL in Hi. rewrite HG by done. rewrite get_write by lia. rewrite HC.
      destruct ((r <=? i) && (i <? r + n)) eqn:E; [|done].
      unfold chacha20. rewrite get_imap by (rewrite len_slice; lia).
      rewrite get_slice by lia. do 2 f_equal; lia.
  Qed.
End crypt.

(** ** In the form of the properties *)

Lemma len_chacha20 key nonce inc msg : len (chacha20 key nonce inc msg) = len msg.
Proof. apply len_imap. Qed.
Lemma bytes_chacha20 key nonce inc msg : bytes msg -> bytes (chacha20 key nonce inc msg).
Proof.
  intros H. apply Forall_get_2. intros i Hi. rewrite len_chacha20 in Hi.
  unfold chacha20. rewrite get_imap by done.
  apply lxor_bound; [lia| |apply key_stream_byte]. exact (Forall_get _ _ _ H Hi).
Qed.
Lemma chacha20_involutive key nonce inc msg :
  chacha20 key nonce inc (chacha20 key nonce inc msg) = msg.
Proof.
  apply get_ext; [by rewrite !len_chacha20|]. intros i Hi. rewrite !len_chacha20 in Hi.
  unfold chacha20. rewrite !get_imap by (rewrite ?len_imap; done).
  by rewrite Z.lxor_assoc, Z.lxor_nilpotent, Z.lxor_0_r.
Qed.
Lemma chacha20_app key nonce inc a b : len a mod 64 = 0 ->
  chacha20 key nonce inc (a ++ b)
  = chacha20 key nonce inc a ++ chacha20 key nonce ((inc + len a / 64) mod 2 ^ 32) b.
Proof.
  intros Ha. unfold chacha20. rewrite imap_app. f_equal. apply imap_ext. intros i x Hx.
  unfold compose. cbv beta. f_equal. unfold key_stream.
  replace (Z.of_nat (length a + i)) with (len a + Z.of_nat i) by (unfold len; lia).
  assert ((len a + Z.of_nat i) mod 64 = Z.of_nat i mod 64) as -> by lia.
  assert ((inc + (len a + Z.of_nat i) / 64) mod 2 ^ 32
          = ((inc + len a / 64) mod 2 ^ 32 + Z.of_nat i / 64) mod 2 ^ 32) as ->.
  { rewrite Zplus_mod_idemp_l. f_equal. lia. }
  reflexivity.
Qed.

Lemma crypt_general key nonce inc m p r n : parameters key nonce -> bytes m ->
  0 <= p -> 0 <= r -> 0 <= n < 2 ^ 32 -> p + n <= len m -> r + n <= len m ->
  r <= p \/ p + n <= r ->
  Chacha20_crypt m p n key nonce inc r = Ok (write m r (chacha20 key nonce inc (slice m p n))).
Proof. intros (? & ? & ? & ?) ???????. apply crypt_ok; try done; unfold len; lia. Qed.

Lemma slice_mid {A} (pre x post : list A) i n : i = len pre -> n = len x ->
  slice (pre ++ x ++ post) i n = x.
Proof.
  intros -> ->. unfold slice, len. rewrite !Nat2Z.id, drop_app, take_app. done.
Qed.
Lemma write_mid {A} (pre x post new : list A) i : i = len pre -> length new = length x ->
  write (pre ++ x ++ post) i new = pre ++ new ++ post.
Proof.
  intros -> H. unfold write, len. rewrite Nat2Z.id, take_app. f_equal. f_equal.
  rewrite H. rewrite <- drop_drop, !drop_app. done.
Qed.
Lemma length_chacha20 key nonce inc msg : length (chacha20 key nonce inc msg) = length msg.
Proof. apply imap_length. Qed.

Lemma crypt_after key nonce inc pre msg mid old post : parameters key nonce ->
  bytes (pre ++ msg ++ mid ++ old ++ post) -> len msg < 2 ^ 32 -> len old = len msg ->
  Chacha20_crypt (pre ++ msg ++ mid ++ old ++ post) (len pre) (len msg) key nonce inc
    (len pre + len msg + len mid)
  = Ok (pre ++ msg ++ mid ++ chacha20 key nonce inc msg ++ post).
Proof.
  intros HP Hb Hl Ho. pose proof (len_nonneg pre). pose proof (len_nonneg msg).
  pose proof (len_nonneg mid). pose proof (len_nonneg post).
  rewrite crypt_general by (try done; rewrite ?len_app; lia). f_equal.
  rewrite slice_mid by done.
  replace (pre ++ msg ++ mid ++ old ++ post) with ((pre ++ msg ++ mid) ++ old ++ post)
    by (rewrite <- !app_assoc; done).
  rewrite write_mid.
  - by rewrite <- !app_assoc.
  - rewrite !len_app. lia.
  - rewrite length_chacha20. unfold len in Ho. lia.
Qed.
Lemma crypt_before key nonce inc pre old mid msg post : parameters key nonce ->
  bytes (pre ++ old ++ mid ++ msg ++ post) -> len msg < 2 ^ 32 -> len old = len msg ->
  Chacha20_crypt (pre ++ old ++ mid ++ msg ++ post) (len pre + len old + len mid) (len msg)
    key nonce inc (len pre)
  = Ok (pre ++ chacha20 key nonce inc msg ++ mid ++ msg ++ post).
Proof.
  intros HP Hb Hl Ho. pose proof (len_nonneg pre). pose proof (len_nonneg msg).
  pose proof (len_nonneg mid). pose proof (len_nonneg post).
  rewrite crypt_general by (try done; rewrite ?len_app; lia). f_equal.
  rewrite write_mid; [|done|].
  - f_equal. f_equal. f_equal.
    replace (pre ++ old ++ mid ++ msg ++ post) with ((pre ++ old ++ mid) ++ msg ++ post)
      by (rewrite <- !app_assoc; done).
    apply slice_mid; [rewrite !len_app; lia|done].
  - rewrite length_chacha20. unfold slice. rewrite take_length, drop_length, !app_length.
    unfold len in *. lia.
Qed.
Lemma crypt_in_place key nonce inc pre msg post : parameters key nonce ->
  bytes (pre ++ msg ++ post) -> len msg < 2 ^ 32 ->
  Chacha20_crypt (pre ++ msg ++ post) (len pre) (len msg) key nonce inc (len pre)
  = Ok (pre ++ chacha20 key nonce inc msg ++ post).
Proof.
  intros HP Hb Hl. pose proof (len_nonneg pre). pose proof (len_nonneg msg).
  pose proof (len_nonneg post).
  rewrite crypt_general by (try done; rewrite ?len_app; lia). f_equal.
  rewrite slice_mid by done. apply write_mid; [done|apply length_chacha20].
Qed.

(** decryption *)
Lemma crypt_twice key nonce inc m p n : parameters key nonce -> bytes m ->
  0 <= p -> 0 <= n < 2 ^ 32 -> p + n <= len m ->
  (let! c := Chacha20_crypt m p n key nonce inc p in Chacha20_crypt c p n key nonce inc p) = Ok m.
Proof.
  intros HP Hb Hp Hn Hl.
  rewrite <- (take_drop (Z.to_nat p) m) in Hb |- *.
  rewrite <- (take_drop (Z.to_nat n) (drop (Z.to_nat p) m)) in Hb |- *.
  remember (take (Z.to_nat p) m) as a. remember (take (Z.to_nat n) (drop (Z.to_nat p) m)) as b.
  remember (drop (Z.to_nat n) (drop (Z.to_nat p) m)) as c.
  assert (len a = p) as Ha by (subst; rewrite len_take; lia).
  assert (len b = n) as Hb' by (subst; rewrite len_take, len_drop; lia).
  rewrite <- Ha, <- Hb'. rewrite crypt_in_place by (done || lia). cbn [bind].
  rewrite <- (len_chacha20 key nonce inc b). rewrite crypt_in_place.
  - by rewrite chacha20_involutive.
  - done.
  - apply Forall_app in Hb as [H1 H2]. apply Forall_app in H2 as [H2 H3].
    apply Forall_app_2; [done|]. apply Forall_app_2; [by apply bytes_chacha20|done].
  - rewrite len_chacha20. lia.
Qed.
Lemma bytes_write m i x : bytes m -> bytes x -> bytes (write m i x).
Proof.
  intros Hm Hx. unfold write. apply Forall_app_2; [by apply Forall_take|].
  apply Forall_app_2; [done|by apply Forall_drop].
Qed.
Lemma bytes_slice m i n : bytes m -> bytes (slice m i n).
Proof. intros Hm. unfold slice. by apply Forall_take, Forall_drop. Qed.
Lemma slice_write_len {A} `{Inhabited A} (o xs : list A) off n :
  0 <= off -> off + n <= len o -> len xs = n -> slice (write o off xs) off n = xs.
Proof. intros ?? <-. by apply slice_write_same. Qed.
(** from [p] to [r], then back from [r] to [q] *)
Lemma crypt_back key nonce inc m p r q n : parameters key nonce -> bytes m ->
  0 <= p -> 0 <= r -> 0 <= q -> 0 <= n < 2 ^ 32 ->
  p + n <= len m -> r + n <= len m -> q + n <= len m ->
  r <= p \/ p + n <= r -> q <= r \/ r + n <= q ->
  exists c d, Chacha20_crypt m p n key nonce inc r = Ok c /\
    Chacha20_crypt c r n key nonce inc q = Ok d /\ slice d q n = slice m p n.
Proof.
  intros HP Hb Hp Hr Hq Hn Hpl Hrl Hql H1 H2.
  rewrite crypt_general by done. eexists _, _. split; [reflexivity|].
  assert (len (chacha20 key nonce inc (slice m p n)) = n) as HC.
  { rewrite len_chacha20, len_slice; lia. }
  assert (len (write m r (chacha20 key nonce inc (slice m p n))) = len m) as HW
    by (rewrite len_write; lia).
  split.
  - rewrite crypt_general; try done; [|by rewrite HW|by rewrite HW].
    apply bytes_write; [done|]. by apply bytes_chacha20, bytes_slice.
  - rewrite (slice_write_len _ _ r) by lia. rewrite chacha20_involutive.
    apply slice_write_len; [lia|lia|]. rewrite len_slice by lia. lia.
Qed.

(** pieces *)
Lemma crypt_pieces key nonce inc m p r a b : parameters key nonce -> bytes m ->
  0 <= p -> 0 <= r -> 0 <= a -> a mod 64 = 0 -> 0 <= b -> a + b < 2 ^ 32 ->
  p + (a + b) <= len m -> r + (a + b) <= len m -> r <= p \/ p + (a + b) <= r ->
  (let! c := Chacha20_crypt m p a key nonce inc r in
   Chacha20_crypt c (p + a) b key nonce ((inc + a / 64) mod 2 ^ 32) (r + a))
  = Chacha20_crypt m p (a + b) key nonce inc r.
Proof.
  intros HP Hb Hp Hr Ha Ha64 Hb0 Hab Hpl Hrl Hov.
  rewrite !crypt_general by (done || lia). cbn [bind].
  assert (len (chacha20 key nonce inc (slice m p a)) = a) as HC.
  { rewrite len_chacha20, len_slice; lia. }
  assert (len (write m r (chacha20 key nonce inc (slice m p a))) = len m) as HW
    by (rewrite len_write; lia).
  rewrite crypt_general; try done; try lia.
  2: { apply bytes_write; [done|]. by apply bytes_chacha20, bytes_slice. }
  f_equal.
  assert (slice m p (a + b) = slice m p a ++ slice m (p + a) b) as ES.
  { unfold slice. replace (Z.to_nat (p + a)) with (Z.to_nat p + Z.to_nat a)%nat by lia.
    rewrite <- drop_drop. generalize (drop (Z.to_nat p) m). intros l.
    replace (Z.to_nat (a + b)) with (Z.to_nat a + Z.to_nat b)%nat by lia.
    by rewrite take_take_drop. }
  rewrite ES, chacha20_app by (rewrite len_slice; lia). rewrite len_slice by lia.
  assert (slice (write m r (chacha20 key nonce inc (slice m p a))) (p + a) b
          = slice m (p + a) b) as ->.
  { destruct (Z.eq_dec b 0) as [->|Hbn].
    - unfold slice. done.
    - rewrite slice_write_disjoint; try done; try lia. }
  remember (chacha20 key nonce ((inc + a / 64) mod 2 ^ 32) (slice m (p + a) b)) as y.
  remember (chacha20 key nonce inc (slice m p a)) as x.
  assert (len y = b) as Hy by (subst; rewrite len_chacha20, len_slice; lia).
  apply get_ext.
  - rewrite !len_write; rewrite ?len_app, ?len_write; lia.
  - intros i Hi. rewrite !len_write in Hi by (rewrite ?len_write; lia).
    rewrite !get_write by (rewrite ?len_app, ?len_write; lia).
    rewrite len_app, HC, Hy.
    destruct ((r + a <=? i) && (i <? r + a + b)) eqn:E1.
    + replace ((r <=? i) && (i <? r + (a + b))) with true by lia.
      rewrite get_app_r by lia. f_equal. lia.
    + destruct ((r <=? i) && (i <? r + a)) eqn:E2.
      * replace ((r <=? i) && (i <? r + (a + b))) with true by lia.
        rewrite get_app_l by lia. done.
      * replace ((r <=? i) && (i <? r + (a + b))) with false by lia. done.
Qed.

(** byte by byte: byte [i] of the result depends on byte [i] of the message only *)
Lemma crypt_local key nonce inc m p r n m' p' r' n' c c' i : parameters key nonce ->
  bytes m -> bytes m' ->
  0 <= p -> 0 <= r -> n < 2 ^ 32 -> p + n <= len m -> r + n <= len m -> r <= p \/ p + n <= r ->
  0 <= p' -> 0 <= r' -> n' < 2 ^ 32 -> p' + n' <= len m' -> r' + n' <= len m' ->
  r' <= p' \/ p' + n' <= r' ->
  Chacha20_crypt m p n key nonce inc r = Ok c ->
  Chacha20_crypt m' p' n' key nonce inc r' = Ok c' ->
  0 <= i < n -> i < n' -> get m (p + i) = get m' (p' + i) -> get c (r + i) = get c' (r' + i).
Proof.
  intros HP Hb Hb' Hp Hr Hn Hpl Hrl Ho Hp' Hr' Hn' Hpl' Hrl' Ho' E E' Hi Hi' HE.
  rewrite crypt_general in E, E' by (done || lia). injection E as <-. injection E' as <-.
  assert (len (chacha20 key nonce inc (slice m p n)) = n) as HC.
  { rewrite len_chacha20, len_slice; lia. }
  assert (len (chacha20 key nonce inc (slice m' p' n')) = n') as HC'.
  { rewrite len_chacha20, len_slice; lia. }
  rewrite !get_write by lia. rewrite HC, HC'.
  replace ((r <=? r + i) && (r + i <? r + n)) with true by lia.
  replace ((r' <=? r' + i) && (r' + i <? r' + n')) with true by lia.
  replace (r + i - r) with i by lia. replace (r' + i - r') with i by lia.
  unfold chacha20. rewrite !get_imap by (rewrite len_slice; lia).
  rewrite !get_slice by lia. by rewrite HE.
Qed.

(** only 32 bytes of the key and 12 of the nonce are used *)
Lemma word_app a x i n : length a = n -> (4 * i + 3 < n)%nat -> word (a ++ x) i = word a i.
Proof. intros <- H. unfold word. rewrite !app_nth1 by lia. done. Qed.
Lemma initial_state_app key x nonce y counter : length key = 32%nat -> length nonce = 12%nat ->
  initial_state (key ++ x) counter (nonce ++ y) = initial_state key counter nonce.
Proof.
  intros Hk Hn. unfold initial_state. f_equal.
  assert (map (word (key ++ x)) (seq 0 8) = map (word key) (seq 0 8)) as ->.
  { apply map_ext_in. intros i Hi. apply in_seq in Hi. eapply word_app; [exact Hk|lia]. }
  assert (map (word (nonce ++ y)) (seq 0 3) = map (word nonce) (seq 0 3)) as ->.
  { apply map_ext_in. intros i Hi. apply in_seq in Hi. eapply word_app; [exact Hn|lia]. }
  done.
Qed.
Lemma chacha20_extra key x nonce y inc msg : length key = 32%nat -> length nonce = 12%nat ->
  chacha20 (key ++ x) (nonce ++ y) inc msg = chacha20 key nonce inc msg.
Proof.
  intros Hk Hn. unfold chacha20. apply imap_ext. intros i b _. f_equal.
  unfold key_stream, chacha20_block. rewrite initial_state_app by done. reflexivity.
Qed.
Lemma crypt_extra key x nonce y inc m p r n :
  length key = 32%nat -> length nonce = 12%nat ->
  bytes (key ++ x) -> bytes (nonce ++ y) -> bytes m ->
  0 <= p -> 0 <= r -> 0 <= n < 2 ^ 32 -> p + n <= len m -> r + n <= len m ->
  r <= p \/ p + n <= r ->
  Chacha20_crypt m p n (key ++ x) (nonce ++ y) inc r = Chacha20_crypt m p n key nonce inc r.
Proof.
  intros Hk Hn Bk Bn Bm Hp Hr Hl H1 H2 Ho.
  assert (parameters (key ++ x) (nonce ++ y)) as P1.
  { split; [done|]. rewrite !app_length. split; [lia|]. split; [done|lia]. }
  assert (parameters key nonce) as P2.
  { split; [exact (proj1 (proj1 (list.Forall_app _ _ _) Bk))|]. split; [lia|].
    split; [exact (proj1 (proj1 (list.Forall_app _ _ _) Bn))|lia]. }
  rewrite !crypt_general by done. by rewrite chacha20_extra.
Qed.
Lemma crypt_frame key nonce inc m p r n c : parameters key nonce -> bytes m ->
  0 <= p -> 0 <= r -> 0 <= n < 2 ^ 32 -> p + n <= len m -> r + n <= len m ->
  r <= p \/ p + n <= r -> Chacha20_crypt m p n key nonce inc r = Ok c ->
  len c = len m /\ forall i, 0 <= i < len m -> i < r \/ r + n <= i -> get c i = get m i.
Proof.
  intros HP Hb Hp Hr Hn Hpl Hrl Ho E. rewrite crypt_general in E by done. injection E as <-.
  assert (len (chacha20 key nonce inc (slice m p n)) = n) as HC.
  { rewrite len_chacha20, len_slice; lia. }
  split; [by rewrite len_write by lia|]. intros i Hi H.
  rewrite get_write by lia. rewrite HC.
  by replace ((r <=? i) && (i <? r + n)) with false by lia.
Qed.

Lemma block_parameters key counter nonce out : parameters key nonce -> is_u32 counter ->
  len out = 64 -> Block key counter nonce out = Ok (chacha20_block key counter nonce).
Proof. intros (? & ? & ? & ?) ??. apply block_ok; try done; unfold len; lia. Qed.

Lemma zero_parameters : parameters (replicate 32 0) (replicate 12 0).
Proof.
  split; [by repeat constructor|]. split; [cbn; lia|]. split; [by repeat constructor|cbn; lia].
Qed.
Lemma overlap_wrong : exists key nonce inc m p r n, parameters key nonce /\ bytes m /\
  0 <= p /\ 0 <= r /\ 0 <= n < 2 ^ 32 /\ p + n <= len m /\ r + n <= len m /\
  exists c, Chacha20_crypt m p n key nonce inc r = Ok c /\
    slice c r n <> chacha20 key nonce inc (slice m p n).
Proof.
  exists (replicate 32 0), (replicate 12 0), 0, [1; 2; 3], 0, 1, 2.
  split; [apply zero_parameters|]. split; [by repeat constructor|].
  repeat (split; [vm_compute; intuition discriminate|]). eexists. split; [by vm_compute|]. vm_compute. discriminate.
Qed.
Lemma cut_wrong : exists key nonce inc m a b, parameters key nonce /\ bytes m /\
  0 <= a /\ 0 <= b /\ a + b < 2 ^ 32 /\ a + b <= len m /\
  (let! c := Chacha20_crypt m 0 a key nonce inc 0 in
   Chacha20_crypt c a b key nonce ((inc + a / 64) mod 2 ^ 32) a)
  <> Chacha20_crypt m 0 (a + b) key nonce inc 0.
Proof.
  exists (replicate 32 0), (replicate 12 0), 0, [1; 2], 1, 1.
  split; [apply zero_parameters|]. split; [by repeat constructor|].
  repeat (split; [vm_compute; intuition discriminate|]). vm_compute. discriminate.
Qed.
