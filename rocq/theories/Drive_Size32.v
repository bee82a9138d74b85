(** * The functions of [/repo/Src] on a target with a 32-bit [size_t], file by file *)
From Coq Require Import String.
From Verif Require Import CSem CFront CSystem Drive_Front CLang CSize32 C_Size32.
Local Open Scope string_scope.
Local Open Scope list_scope.

(** the functions whose terms differ from those in [C_*.v] *)
Definition size32_functions : list (string * fundef) :=
  [("Base64_encode", c32_Base64_encode); ("Base64_decode", c32_Base64_decode);
   ("Json_startString", c32_Json_startString); ("Json_addData", c32_Json_addData);
   ("Json_endString", c32_Json_endString); ("Json_findByKey", c32_Json_findByKey);
   ("CaesarCipher_encrypt", c32_CaesarCipher_encrypt);
   ("CaesarCipher_decrypt", c32_CaesarCipher_decrypt);
   ("VernamCipher_encrypt", c32_VernamCipher_encrypt);
   ("VernamCipher_decrypt", c32_VernamCipher_decrypt);
   ("GetIndex", c32_Map_GetIndex); ("Map_insert", c32_Map_insert);
   ("Map_getValue", c32_Map_getValue);
   ("InsertionSort_sort", c32_InsertionSort_sort)].

(** what the files should translate to *)
Definition c_program32 : list (string * list (string * bool * fundef)) :=
  map (fun '(f, ds) =>
         (f, map (fun '(x, static, d) =>
                    (x, static, match assoc x size32_functions with Some d32 => d32 | None => d end)) ds))
    c_program.
