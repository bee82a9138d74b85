(** * The text of files in [/repo/Src]

    Copied by [/verif/tools/embed.py], which changes nothing but writes each double quote twice
    (that is how Coq writes one inside a string); [embed.py --check] compares. *)
From Coq Require Import String.
Local Open Scope string_scope.

(** Src/sort/bubble_sort.c *)
Definition text_bubble_sort_c : string :=
"/****************************************************************************
 *
 *   Copyright (c) 2023 IMProject Development Team. All rights reserved.
 *   Authors: Juraj Ciberlin <jciberlin1@gmail.com>
 *
 * Redistribution and use in source and binary forms, with or without
 * modification, are permitted provided that the following conditions
 * are met:
 *
 * 1. Redistributions of source code must retain the above copyright
 *    notice, this list of conditions and the following disclaimer.
 * 2. Redistributions in binary form must reproduce the above copyright
 *    notice, this list of conditions and the following disclaimer in
 *    the documentation and/or other materials provided with the
 *    distribution.
 * 3. Neither the name IMProject nor the names of its contributors may be
 *    used to endorse or promote products derived from this software
 *    without specific prior written permission.
 *
 * THIS SOFTWARE IS PROVIDED BY THE COPYRIGHT HOLDERS AND CONTRIBUTORS
 * ""AS IS"" AND ANY EXPRESS OR IMPLIED WARRANTIES, INCLUDING, BUT NOT
 * LIMITED TO, THE IMPLIED WARRANTIES OF MERCHANTABILITY AND FITNESS
 * FOR A PARTICULAR PURPOSE ARE DISCLAIMED. IN NO EVENT SHALL THE
 * COPYRIGHT OWNER OR CONTRIBUTORS BE LIABLE FOR ANY DIRECT, INDIRECT,
 * INCIDENTAL, SPECIAL, EXEMPLARY, OR CONSEQUENTIAL DAMAGES (INCLUDING,
 * BUT NOT LIMITED TO, PROCUREMENT OF SUBSTITUTE GOODS OR SERVICES; LOSS
 * OF USE, DATA, OR PROFITS; OR BUSINESS INTERRUPTION) HOWEVER CAUSED
 * AND ON ANY THEORY OF LIABILITY, WHETHER IN CONTRACT, STRICT
 * LIABILITY, OR TORT (INCLUDING NEGLIGENCE OR OTHERWISE) ARISING IN
 * ANY WAY OUT OF THE USE OF THIS SOFTWARE, EVEN IF ADVISED OF THE
 * POSSIBILITY OF SUCH DAMAGE.
 *
 ****************************************************************************/

#include ""bubble_sort.h""

#include ""utils.h""

void
BubbleSort_sort(byte_t* buffer, int32_t number_of_elements, int32_t element_size,
                bool (*compareFun)(void* first, void* second)) {
    byte_t* elements = buffer;
    bool swapped = true;
    int32_t i = 0;
    while (swapped) {
        swapped = false;
        for (int32_t j = 0; j < (number_of_elements - i - 1); ++j) {
            if (compareFun(&elements[j * element_size], &elements[(j + 1) * element_size])) {
                Utils_swapElements(&elements[j * element_size], &elements[(j + 1) * element_size], (uint32_t)element_size);
                swapped = true;
            }
        }
        ++i;
    }
}
".

(** Src/sort/insertion_sort.c *)
Definition text_insertion_sort_c : string :=
"/****************************************************************************
 *
 *   Copyright (c) 2024 IMProject Development Team. All rights reserved.
 *   Authors: Juraj Ciberlin <jciberlin1@gmail.com>
 *
 * Redistribution and use in source and binary forms, with or without
 * modification, are permitted provided that the following conditions
 * are met:
 *
 * 1. Redistributions of source code must retain the above copyright
 *    notice, this list of conditions and the following disclaimer.
 * 2. Redistributions in binary form must reproduce the above copyright
 *    notice, this list of conditions and the following disclaimer in
 *    the documentation and/or other materials provided with the
 *    distribution.
 * 3. Neither the name IMProject nor the names of its contributors may be
 *    used to endorse or promote products derived from this software
 *    without specific prior written permission.
 *
 * THIS SOFTWARE IS PROVIDED BY THE COPYRIGHT HOLDERS AND CONTRIBUTORS
 * ""AS IS"" AND ANY EXPRESS OR IMPLIED WARRANTIES, INCLUDING, BUT NOT
 * LIMITED TO, THE IMPLIED WARRANTIES OF MERCHANTABILITY AND FITNESS
 * FOR A PARTICULAR PURPOSE ARE DISCLAIMED. IN NO EVENT SHALL THE
 * COPYRIGHT OWNER OR CONTRIBUTORS BE LIABLE FOR ANY DIRECT, INDIRECT,
 * INCIDENTAL, SPECIAL, EXEMPLARY, OR CONSEQUENTIAL DAMAGES (INCLUDING,
 * BUT NOT LIMITED TO, PROCUREMENT OF SUBSTITUTE GOODS OR SERVICES; LOSS
 * OF USE, DATA, OR PROFITS; OR BUSINESS INTERRUPTION) HOWEVER CAUSED
 * AND ON ANY THEORY OF LIABILITY, WHETHER IN CONTRACT, STRICT
 * LIABILITY, OR TORT (INCLUDING NEGLIGENCE OR OTHERWISE) ARISING IN
 * ANY WAY OUT OF THE USE OF THIS SOFTWARE, EVEN IF ADVISED OF THE
 * POSSIBILITY OF SUCH DAMAGE.
 *
 ****************************************************************************/

#include ""insertion_sort.h""

#include <string.h>

void
InsertionSort_sort(byte_t* buffer, int32_t number_of_elements, int32_t element_size,
                   bool (*compareFun)(void* first, void* second)) {
    byte_t* elements = buffer;
    static byte_t max_element[MAX_ELEMENT_SIZE];
    byte_t* element = &max_element[0];

    for (int32_t i = 1; i < number_of_elements; ++i) {
        /* -E> compliant MC3R1.R21.18 4 Buffer overflow will not happen, all elements in buffer
         * have same size, and their size is stored in element_size variable. Precondition is that
         * element_size must be less than or equal to MAX_ELEMENT_SIZE. */
        // cppcheck-suppress misra-c2012-17.7; return value is not needed in this case
        memcpy(element, &elements[i * element_size], (size_t)element_size);

        int32_t j = i - 1;
        bool compare = compareFun(&elements[j * element_size], element);

        while ((j >= 0) && compare) {
            /* -E> compliant MC3R1.R19.1 3 Overlap will not happen, all elements in buffer
             * have same size, and their size is stored in element_size variable. */
            // cppcheck-suppress misra-c2012-17.7; return value is not needed in this case
            memcpy(&elements[(j + 1) * element_size], &elements[j * element_size], (size_t)element_size);
            --j;
            compare = compareFun(&elements[j * element_size], element);
        }
        /* -E> compliant MC3R1.R21.18 4 Buffer overflow will not happen, all elements in buffer
         * have same size, and their size is stored in element_size variable. Precondition is that
         * element_size must be less than or equal to MAX_ELEMENT_SIZE. */
        // cppcheck-suppress misra-c2012-17.7; return value is not needed in this case
        memcpy(&elements[(j + 1) * element_size], element, (size_t)element_size);
    }
}
".

(** Src/sort/selection_sort.c *)
Definition text_selection_sort_c : string :=
"/****************************************************************************
 *
 *   Copyright (c) 2023 IMProject Development Team. All rights reserved.
 *   Authors: Juraj Ciberlin <jciberlin1@gmail.com>
 *
 * Redistribution and use in source and binary forms, with or without
 * modification, are permitted provided that the following conditions
 * are met:
 *
 * 1. Redistributions of source code must retain the above copyright
 *    notice, this list of conditions and the following disclaimer.
 * 2. Redistributions in binary form must reproduce the above copyright
 *    notice, this list of conditions and the following disclaimer in
 *    the documentation and/or other materials provided with the
 *    distribution.
 * 3. Neither the name IMProject nor the names of its contributors may be
 *    used to endorse or promote products derived from this software
 *    without specific prior written permission.
 *
 * THIS SOFTWARE IS PROVIDED BY THE COPYRIGHT HOLDERS AND CONTRIBUTORS
 * ""AS IS"" AND ANY EXPRESS OR IMPLIED WARRANTIES, INCLUDING, BUT NOT
 * LIMITED TO, THE IMPLIED WARRANTIES OF MERCHANTABILITY AND FITNESS
 * FOR A PARTICULAR PURPOSE ARE DISCLAIMED. IN NO EVENT SHALL THE
 * COPYRIGHT OWNER OR CONTRIBUTORS BE LIABLE FOR ANY DIRECT, INDIRECT,
 * INCIDENTAL, SPECIAL, EXEMPLARY, OR CONSEQUENTIAL DAMAGES (INCLUDING,
 * BUT NOT LIMITED TO, PROCUREMENT OF SUBSTITUTE GOODS OR SERVICES; LOSS
 * OF USE, DATA, OR PROFITS; OR BUSINESS INTERRUPTION) HOWEVER CAUSED
 * AND ON ANY THEORY OF LIABILITY, WHETHER IN CONTRACT, STRICT
 * LIABILITY, OR TORT (INCLUDING NEGLIGENCE OR OTHERWISE) ARISING IN
 * ANY WAY OUT OF THE USE OF THIS SOFTWARE, EVEN IF ADVISED OF THE
 * POSSIBILITY OF SUCH DAMAGE.
 *
 ****************************************************************************/

#include ""selection_sort.h""

#include ""utils.h""

void
SelectionSort_sort(byte_t* buffer, int32_t number_of_elements, int32_t element_size,
                   bool (*compareFun)(void* first, void* second)) {
    byte_t* elements = buffer;
    int32_t j;

    for (int32_t i = 0; i < (number_of_elements - 1); ++i) {
        int32_t min_index = i;
        for (j = i + 1; j < number_of_elements; ++j) {
            if (compareFun(&elements[min_index * element_size], &elements[j * element_size])) {
                min_index = j;
            }
        }

        if (min_index != i) {
            Utils_swapElements(&elements[min_index * element_size], &elements[i * element_size], (uint32_t)element_size);
        }
    }
}
".

(** Src/sort/heap_sort.c *)
Definition text_heap_sort_c : string :=
"/****************************************************************************
 *
 *   Copyright (c) 2022 IMProject Development Team. All rights reserved.
 *   Authors: Juraj Ciberlin <jciberlin1@gmail.com>
 *
 * Redistribution and use in source and binary forms, with or without
 * modification, are permitted provided that the following conditions
 * are met:
 *
 * 1. Redistributions of source code must retain the above copyright
 *    notice, this list of conditions and the following disclaimer.
 * 2. Redistributions in binary form must reproduce the above copyright
 *    notice, this list of conditions and the following disclaimer in
 *    the documentation and/or other materials provided with the
 *    distribution.
 * 3. Neither the name IMProject nor the names of its contributors may be
 *    used to endorse or promote products derived from this software
 *    without specific prior written permission.
 *
 * THIS SOFTWARE IS PROVIDED BY THE COPYRIGHT HOLDERS AND CONTRIBUTORS
 * ""AS IS"" AND ANY EXPRESS OR IMPLIED WARRANTIES, INCLUDING, BUT NOT
 * LIMITED TO, THE IMPLIED WARRANTIES OF MERCHANTABILITY AND FITNESS
 * FOR A PARTICULAR PURPOSE ARE DISCLAIMED. IN NO EVENT SHALL THE
 * COPYRIGHT OWNER OR CONTRIBUTORS BE LIABLE FOR ANY DIRECT, INDIRECT,
 * INCIDENTAL, SPECIAL, EXEMPLARY, OR CONSEQUENTIAL DAMAGES (INCLUDING,
 * BUT NOT LIMITED TO, PROCUREMENT OF SUBSTITUTE GOODS OR SERVICES; LOSS
 * OF USE, DATA, OR PROFITS; OR BUSINESS INTERRUPTION) HOWEVER CAUSED
 * AND ON ANY THEORY OF LIABILITY, WHETHER IN CONTRACT, STRICT
 * LIABILITY, OR TORT (INCLUDING NEGLIGENCE OR OTHERWISE) ARISING IN
 * ANY WAY OUT OF THE USE OF THIS SOFTWARE, EVEN IF ADVISED OF THE
 * POSSIBILITY OF SUCH DAMAGE.
 *
 ****************************************************************************/

#include ""heap_sort.h""

#include ""utils.h""

static void
Heapify(byte_t* buffer, int32_t n, int32_t i, int32_t element_size,
        bool (*compareFun)(void* first, void* second)) {
    bool continue_iterating = true;
    int32_t index = i;
    byte_t* elements = buffer;

    while (continue_iterating) {
        int32_t largest = index;
        int32_t left = (2 * index) + 1;
        int32_t right = (2 * index) + 2;

        bool compare_ret_value = compareFun(&elements[left * element_size],
                                            &elements[largest * element_size]);

        if ((left < n) && (compare_ret_value)) {
            largest = left;
        }

        compare_ret_value = compareFun(&elements[right * element_size], &elements[largest * element_size]);

        if ((right < n) && (compare_ret_value)) {
            largest = right;
        }

        if (largest != index) {
            Utils_swapElements(&elements[index * element_size], &elements[largest * element_size], (uint32_t)element_size);
            index = largest;
        } else {
            continue_iterating = false;
        }
    }
}

void
HeapSort_sort(byte_t* buffer, int32_t number_of_elements, int32_t element_size,
              bool (*compareFun)(void* first, void* second)) {
    int32_t i;
    byte_t* elements = buffer;
    for (i = (number_of_elements / 2) - 1; i >= 0; --i) {
        Heapify(elements, number_of_elements, i, element_size, compareFun);
    }

    for (i = number_of_elements - 1; i >= 0; --i) {
        Utils_swapElements(&elements[0], &elements[i * element_size], (uint32_t)element_size);
        Heapify(elements, i, 0, element_size, compareFun);
    }
}
".

(** the files by name *)
Definition text_sort : list (string * string) :=
  (("bubble_sort.c", text_bubble_sort_c)
   :: ("insertion_sort.c", text_insertion_sort_c)
   :: ("selection_sort.c", text_selection_sort_c)
   :: ("heap_sort.c", text_heap_sort_c)
   :: nil)%list.
