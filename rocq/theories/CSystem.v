(** * The system headers that [/repo/Src] includes

    What the C files use of them, for the x86-64 target of [/repo/Makefile] (C99 7.16, 7.18,
    7.17).  The declarations of the [string.h] functions are left out: [CFront] knows their
    names and [CLang] their meaning. *)
From Coq Require Import String.
Local Open Scope string_scope.

Definition system : list (string * string) :=
  (("<stdbool.h>", "
#define bool _Bool
#define true 1
#define false 0
") :: ("<stdint.h>", "
#define UINT32_MAX (4294967295U)
typedef signed char int8_t;
typedef unsigned char uint8_t;
typedef unsigned short uint16_t;
typedef int int32_t;
typedef unsigned int uint32_t;
typedef long int64_t;
typedef unsigned long uint64_t;
") :: ("<string.h>", "
#ifndef SIZE_T
#define SIZE_T
typedef unsigned long size_t;
#endif
") :: nil)%list.
