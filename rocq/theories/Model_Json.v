(** * Model of [/repo/Src/json.c]

    [buffer], [key] and [value] are different objects; [buffer_size] and
    [max_value_size] are what the caller claims about [buffer] and [value].  A [char] is
    its byte (all comparisons below are of bytes with ASCII literals, so the signedness of
    [char] does not matter). *)
From Verif Require Import CSem.

(** the string literals of json.c:47-98, each with its terminating NUL:
    an opening brace (47), a closing brace (98), a comma (63), a double quote (61, 69, 83),
    and double quote, colon, double quote (76) *)
Definition lit_open : list Z := [123; 0].
Definition lit_close : list Z := [125; 0].
Definition lit_comma : list Z := [44; 0].
Definition lit_quote : list Z := [34; 0].
Definition lit_colon : list Z := [34; 58; 34; 0].

(** json.c:39 *)
Definition MINIMAL_SIZE : Z := 2.

(** json.c:41-52 *)
Definition Json_startString (buffer : list Z) (buffer_size : Z)
  : outcome (bool * list Z) :=
  if MINIMAL_SIZE <=? buffer_size then
    let! buffer := strcpy buffer 0 lit_open in Ok (true, buffer)
  else Ok (false, buffer).

(** json.c:54-89; the [strlen] of the literals at lines 59, 70, 77 are 5, 1 and 3 *)
Definition Json_addData (buffer : list Z) (buffer_size : Z) (key value : list Z)
  : outcome (bool * list Z) :=
  let! index := strlen buffer in
  let! key_len := strlen key in
  let! value_len := strlen value in
  let total_size := u64 (u64 (u64 (5 + key_len) + value_len) + 1) in
  (* json.c:61-65 *)
  let! quote := strcmp_eq buffer (u64 (index - 1)) lit_quote in
  let! '(buffer, index) :=
    if (quote : bool) then
      let! buffer := strcpy buffer index lit_comma in Ok (buffer, u64 (index + 1))
    else Ok (buffer, index) in
  (* json.c:67-86 *)
  if u64 (total_size + index) <=? buffer_size then
    let! buffer := strcpy buffer index lit_quote in
    let index := u64 (index + 1) in
    let! buffer := strcpy buffer index key in
    let index := u64 (index + key_len) in
    let! buffer := strcpy buffer index lit_colon in
    let index := u64 (index + 3) in
    let! buffer := strcpy buffer index value in
    let index := u64 (index + value_len) in
    let! buffer := strcpy buffer index lit_quote in
    Ok (true, buffer)
  else Ok (false, buffer).

(** json.c:91-103 *)
Definition Json_endString (buffer : list Z) (buffer_size : Z) : outcome (bool * list Z) :=
  let! index := strlen buffer in
  if u64 (MINIMAL_SIZE + index) <=? buffer_size then
    let! buffer := strcpy buffer index lit_close in Ok (true, buffer)
  else Ok (false, buffer).

(** json.c:105-159; [index] is [uint32_t], sizes are [size_t].  [buffer] is [const].
    The pointee of [value] is passed in and returned. *)
Definition Json_findByKey (buffer : list Z) (buffer_size : Z) (key value : list Z)
    (max_value_size : Z) : outcome (bool * list Z) :=
  let! key_size := strlen key in
  (* json.c:113-115 *)
  let max_search_size :=
    if key_size <? buffer_size then u32 (buffer_size - key_size) else 0 in
  (* json.c:117-129; state (index, success) *)
  let! '(index, success) :=
    cwhile (S (S (length buffer)))
      (fun '(index, success) => index <? max_search_size)
      (fun '(index, success) =>
         let! eq := strncmp_eq buffer index key 0 (Z.to_nat key_size) in
         if (eq : bool) then
           let! c := load buffer (u64 (index + key_size)) in
           Ok (Break (index, if c =? 34 then true else success))
         else Ok (Next (u32 (index + 1), success)))
      (0, false) in
  if (success : bool) then
    (* json.c:134-139 *)
    let! index :=
      cwhile (S (S (length buffer)))
        (fun index => index <? buffer_size)
        (fun index =>
           let! c := load buffer index in
           if c =? 34 then Ok (Break index) else Ok (Next (u32 (index + 1))))
        (u32 (index + u32 (u64 (key_size + 1)))) in
    (* json.c:141-155; state (value, value_size, index, success) *)
    let index := u32 (index + 1) in
    let! '(value, _, _, success) :=
      cwhile (S (S (length buffer)))
        (fun '(value, value_size, index, success) =>
           (index <? buffer_size) && (value_size <? max_value_size))
        (fun '(value, value_size, index, success) =>
           let! c := load buffer index in
           let! value := store value value_size c in
           if c =? 34 then
             let! value := store value value_size 0 in
             Ok (Break (value, value_size, index, true))
           else Ok (Next (value, u64 (value_size + 1), u32 (index + 1), success)))
        (value, 0, index, false) in
    Ok (success, value)
  else Ok (false, value).
