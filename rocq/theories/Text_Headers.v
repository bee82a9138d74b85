(** * The text of files in [/repo/Inc]

    Copied by [/verif/tools/embed.py], which changes nothing but writes each double quote twice
    (that is how Coq writes one inside a string); [embed.py --check] compares. *)
From Coq Require Import String.
Local Open Scope string_scope.

(** Inc/typedefs.h *)
Definition text_typedefs_h : string :=
"/****************************************************************************
 *
 *   Copyright (c) 2023 IMProject Development Team. All rights reserved.
 *   Authors: Igor Misic <igy1000mb@gmail.com>
 *
 * Redistribution and use in source and binary forms, with or without
 * modification, are permitted provided that the following conditions
 * are met:
 *
 * 1. Redistributions of source code must retain the above copyright
 *    notice, this list of conditions and the following disclaimer.
 * 2. Redistributions in binary form must reproduce the above copyright
 *    notice, this list of conditions and the following disclaimer in
 *    the documentation and/or other materials provided with the
 *    distribution.
 * 3. Neither the name IMProject nor the names of its contributors may be
 *    used to endorse or promote products derived from this software
 *    without specific prior written permission.
 *
 * THIS SOFTWARE IS PROVIDED BY THE COPYRIGHT HOLDERS AND CONTRIBUTORS
 * ""AS IS"" AND ANY EXPRESS OR IMPLIED WARRANTIES, INCLUDING, BUT NOT
 * LIMITED TO, THE IMPLIED WARRANTIES OF MERCHANTABILITY AND FITNESS
 * FOR A PARTICULAR PURPOSE ARE DISCLAIMED. IN NO EVENT SHALL THE
 * COPYRIGHT OWNER OR CONTRIBUTORS BE LIABLE FOR ANY DIRECT, INDIRECT,
 * INCIDENTAL, SPECIAL, EXEMPLARY, OR CONSEQUENTIAL DAMAGES (INCLUDING,
 * BUT NOT LIMITED TO, PROCUREMENT OF SUBSTITUTE GOODS OR SERVICES; LOSS
 * OF USE, DATA, OR PROFITS; OR BUSINESS INTERRUPTION) HOWEVER CAUSED
 * AND ON ANY THEORY OF LIABILITY, WHETHER IN CONTRACT, STRICT
 * LIABILITY, OR TORT (INCLUDING NEGLIGENCE OR OTHERWISE) ARISING IN
 * ANY WAY OUT OF THE USE OF THIS SOFTWARE, EVEN IF ADVISED OF THE
 * POSSIBILITY OF SUCH DAMAGE.
 *
 ****************************************************************************/

#ifndef UTILITY_TYPEDEFS_H_
#define UTILITY_TYPEDEFS_H_

#include <stdbool.h>
#include <stdint.h>

#define NULL_PTR ((void*)0)

typedef float float32_t;
typedef double float64_t;
typedef long double float128_t;

/* -E> compliant MC3R1.D4.6 2 Type byte_t shall be used everywhere where a pointer to bytes is needed to follow Strict Aliasing Rule */
// More on the topic can be found here: https://gist.github.com/jibsen/da6be27cde4d526ee564
typedef unsigned char byte_t;

#endif /* UTILITY_TYPEDEFS_H_ */
".

(** Inc/misra_c_2012_doc.h *)
Definition text_misra_c_2012_doc_h : string :=
"#ifndef UTILITY_MISRA_C_2012_DOC_H_
#define UTILITY_MISRA_C_2012_DOC_H_

/*

Documentation for MISRA C:2012 Dir 4.1: overflow
------------------------------------------------
In all cases where overflow can happen, extra checks are implemented in production
code which will not allow overflow to happen.

Documentation for MISRA C:2012 Dir 4.1: unexpected wrapping
-----------------------------------------------------------
There is not unexpected wrapping in the code.

Documentation for MISRA C:2012 Dir 4.1: invalid shift
-----------------------------------------------------
In all cases where invalid shift can happen, extra checks are implemented in
production code which will not allow invalid shift to happen.

Documentation for MISRA C:2012 Dir 4.1: division/remainder by zero
------------------------------------------------------------------
In all cases where division/remainder operations are used, check is implemented
in production code which will prevent division/remainder operations by zero.

Documentation for MISRA C:2012 Dir 4.1: unsequenced side effects
----------------------------------------------------------------
Unsequenced side error cannot happen because no function in this code is meant
to be executed from interrupt handlers, or in multi-threading environments.

Documentation for MISRA C:2012 Dir 4.1: read from uninitialized automatic object
--------------------------------------------------------------------------------
Automatic objects are always initialized before their usage. ECLAIR is used for
MISRA rules verification, and there is no violations nor cautions regarding 9.1
rule.

Documentation for MISRA C:2012 Dir 4.1: read from uninitialized allocated object
--------------------------------------------------------------------------------
Allocated objects are not used in the code. ECLAIR is used for MISRA rules
verification, and there is no violations nor cautions regarding 21.3 rule.

Documentation for MISRA C:2012 Dir 4.1: write to string literal or const object
-------------------------------------------------------------------------------
String literal and const object are placed inside read-only section of memory.
Therefore, all write requests that are attempted on such section of memory are
correctly handled.

Documentation for MISRA C:2012 Dir 4.1: non-volatile access to volatile object
------------------------------------------------------------------------------
Non-volatile access to volatile object is not used in the project.

Documentation for MISRA C:2012 Dir 4.1: access to dead allocated object
-----------------------------------------------------------------------
Allocated objects are not used in the code. ECLAIR is used for MISRA rules
verification, and there is no violations nor cautions regarding 21.3 rule.

Documentation for MISRA C:2012 Dir 4.1: access to dead automatic object
-----------------------------------------------------------------------
Pointers to automatic variables are never returned, nor stored in wider-scoped objects.

Documentation for MISRA C:2012 Dir 4.1: access to dead thread object
--------------------------------------------------------------------
Per thread objects are not used in the code.

Documentation for MISRA C:2012 Dir 4.1: access using null pointer
-----------------------------------------------------------------
Guards are implemented and used in production code to avoid possible null
pointer/invalid pointer access.

Documentation for MISRA C:2012 Dir 4.1: access using invalid pointer
--------------------------------------------------------------------
Guards are implemented and used in production code to avoid possible null
pointer/invalid pointer access.

Documentation for MISRA C:2012 Dir 4.1: access using out-of-bounds pointer
--------------------------------------------------------------------------
Guards are implemented and used in production code to avoid possible
out-of-bounds pointer access.

Documentation for MISRA C:2012 Dir 4.1: access using unaligned pointer
----------------------------------------------------------------------
Only pointer conversion that is used in the code is pointer conversion to:
char, unsigned char, const char, const unsigned char.

Documentation for MISRA C:2012 Dir 4.1: mistyped access to object
-----------------------------------------------------------------
Only pointer conversion that is used in the code is pointer conversion to:
char, unsigned char, const char, const unsigned char.

Documentation for MISRA C:2012 Dir 4.1: mistyped access to function
-------------------------------------------------------------------
In all cases where function pointers are used, guards are implemented in
production code.

Documentation for MISRA C:2012 Dir 4.1: invalid pointer arithmetic
------------------------------------------------------------------
In all cases where pointer arithmetic is used, guards are implemented in
production code.

Documentation for MISRA C:2012 Dir 4.1: invalid pointer comparison
------------------------------------------------------------------
Guard are implemented in production code to avoid invalid pointer comparison.

Documentation for MISRA C:2012 Dir 4.1: overlapping copy
--------------------------------------------------------
In all cases where overlap can happen, extra checks are implemented in production
code which will not allow overlap to happen.

Documentation for MISRA C:2012 Dir 4.1: invalid arguments to function
---------------------------------------------------------------------
All arguments passed to functions are validated.

Documentation for MISRA C:2012 Dir 4.1: returned function error
---------------------------------------------------------------
Return value of all functions are checked at each call site, and all functions
that may produce an error will return a suitable status.

Documentation for MISRA C:2012 Dir 4.1: tainted input
-----------------------------------------------------
All parameters of all functions are checked before being used.

Documentation for MISRA C:2012 Dir 4.1: data race
-------------------------------------------------
No function in this code is meant to be executed from interrupt handlers,
or in a multi-threading environment.

Documentation for MISRA C:2012 Dir 4.1: invariant violation
-----------------------------------------------------------
In all cases where invariant violation can happen, extra checks are implemented
in production code which will not allow invariant violation to happen.

Documentation for MISRA C:2012 Dir 4.1: communication error
-----------------------------------------------------------
External communication is not involved in the code.

*/

#endif /* UTILITY_MISRA_C_2012_DOC_H_ */
".

(** Inc/utils.h *)
Definition text_utils_h : string :=
"/****************************************************************************
 *
 *   Copyright (c) 2021 - 2023 IMProject Development Team. All rights reserved.
 *   Authors: Igor Misic <igy1000mb@gmail.com>
 *
 * Redistribution and use in source and binary forms, with or without
 * modification, are permitted provided that the following conditions
 * are met:
 *
 * 1. Redistributions of source code must retain the above copyright
 *    notice, this list of conditions and the following disclaimer.
 * 2. Redistributions in binary form must reproduce the above copyright
 *    notice, this list of conditions and the following disclaimer in
 *    the documentation and/or other materials provided with the
 *    distribution.
 * 3. Neither the name IMProject nor the names of its contributors may be
 *    used to endorse or promote products derived from this software
 *    without specific prior written permission.
 *
 * THIS SOFTWARE IS PROVIDED BY THE COPYRIGHT HOLDERS AND CONTRIBUTORS
 * ""AS IS"" AND ANY EXPRESS OR IMPLIED WARRANTIES, INCLUDING, BUT NOT
 * LIMITED TO, THE IMPLIED WARRANTIES OF MERCHANTABILITY AND FITNESS
 * FOR A PARTICULAR PURPOSE ARE DISCLAIMED. IN NO EVENT SHALL THE
 * COPYRIGHT OWNER OR CONTRIBUTORS BE LIABLE FOR ANY DIRECT, INDIRECT,
 * INCIDENTAL, SPECIAL, EXEMPLARY, OR CONSEQUENTIAL DAMAGES (INCLUDING,
 * BUT NOT LIMITED TO, PROCUREMENT OF SUBSTITUTE GOODS OR SERVICES; LOSS
 * OF USE, DATA, OR PROFITS; OR BUSINESS INTERRUPTION) HOWEVER CAUSED
 * AND ON ANY THEORY OF LIABILITY, WHETHER IN CONTRACT, STRICT
 * LIABILITY, OR TORT (INCLUDING NEGLIGENCE OR OTHERWISE) ARISING IN
 * ANY WAY OUT OF THE USE OF THIS SOFTWARE, EVEN IF ADVISED OF THE
 * POSSIBILITY OF SUCH DAMAGE.
 *
 ****************************************************************************/

#ifndef UTILITY_UTILS_H_
#define UTILITY_UTILS_H_

#include ""misra_c_2012_doc.h""
#include ""typedefs.h""

/**
 * @brief Converts a string to an unsigned 32-bit integer.
 *
 * This function converts a string to an unsigned 32-bit integer. The string does not need
 * to be null-terminated and requires the string length to be provided. The function returns
 * a boolean value indicating the success of the conversion and stores the converted integer
 * in the provided integer pointer.
 *
 * @param[in] str Pointer to the string to convert.
 * @param[in] str_length Length of the string.
 * @param[out] integer Pointer to store the converted unsigned 32-bit integer.
 *
 * @return true if the conversion was successful, false otherwise.
 */
bool Utils_stringToUint32(const char* str, uint8_t str_length, uint32_t* integer);

/**
 * @brief Swap two elements. Swap the content of two byte arrays of the same size.
 *
 * @param first[in/out] Pointer to the first array.
 * @param second[in/out] Pointer to the second array.
 * @param size[in] Size of the element. The number of bytes in each array.
 */
void Utils_swapElements(byte_t* first, byte_t* second, uint32_t size);

/**
 * @brief Quickly calculates 10 raised to the power of the given exponent
 *        and returns the result in a uint32_t.
 *
 * @param exponent[in] The exponent of 10 to calculate.
 * @param result[out] Pointer to where the result will be stored.
 * @return true If the exponent is valid and the result was calculated.
 * @return false If the exponent is invalid and the result could not be calculated.
 *
 * @note This function uses a lookup table for quick calculation of 10^exponent.
 *       The lookup table contains the precomputed values of 10^0 to 10^9.
 *       If the given exponent is greater than 9, the function returns false.
 */
bool Utils_quickUint32Pow10(uint8_t exponent, uint32_t* result);

/**
 * @brief Serialize a 8-bit value into a buffer (for little-endian and big-endian).
 *
 * @param buf[out] Pointer to the buffer where the serialized value will be written.
 * @param value[in] The 8-bit value to be serialized.
 *
 */
void Utils_serialize8(byte_t* buf, uint8_t value);

/**
 * @brief Deserializes a 8-bit value from a byte buffer (for little-endian and big-endian).
 *
 * @param buf[in] Pointer to the input byte buffer containing the serialized value.
 * @return The deserialized 8-bit value.
 *
 */
uint8_t Utils_deserialize8(const byte_t* buf);

/**
 * @brief Serialize a 16-bit value in big-endian format into a buffer.
 *
 * @param buf[out] Pointer to the buffer where the serialized value will be written.
 * @param value[in] The 16-bit value to be serialized.
 *
 * @note The buffer must be at least 2 bytes long to accommodate the serialized value.
 */
void Utils_serialize16BE(byte_t* buf, uint16_t value);

/**
 * @brief Serialize a 24-bit value in big-endian format into a buffer.
 *
 * @param buf[out] Pointer to the buffer where the serialized value will be written.
 * @param value[in] The 24-bit value to be serialized.
 *
 * @note The buffer must be at least 3 bytes long to accommodate the serialized value.
 */
void Utils_serialize24BE(byte_t* buf, uint32_t value);

/**
 * @brief Serialize a 32-bit value in big-endian format into a buffer.
 *
 * @param buf[out] Pointer to the buffer where the serialized value will be written.
 * @param value[in] The 32-bit value to be serialized.
 *
 * @note The buffer must be at least 4 bytes long to accommodate the serialized value.
 */
void Utils_serialize32BE(byte_t* buf, uint32_t value);

/**
 * @brief Serialize a blob of data in big-endian format.
 *
 * This function serializes a blob(binary large object) of data in big-endian format.
 *
 * @param[out] buf Pointer to the output buffer where serialized data will be written.
 * @param[in] src Pointer to the source data buffer to be serialized.
 * @param[in] size Number of bytes to be serialized.
 */
void Utils_serializeBlobBE(byte_t* buf, const byte_t* src, uint32_t size);

/**
 * @brief Deserializes a 16-bit value from a big-endian byte buffer.
 *
 * @param buf[in] Pointer to the input byte buffer containing the serialized value.
 * @return The deserialized 16-bit value.
 *
 * @note The buffer must be at least 2 bytes long to accommodate the deserialized value.
 */
uint16_t Utils_deserialize16BE(const byte_t* buf);

/**
 * @brief Deserializes a 24-bit value from a big-endian byte buffer.
 *
 * @param buf[in] Pointer to the input byte buffer containing the serialized value.
 * @return The deserialized 24-bit value.
 *
 * @note The buffer must be at least 3 bytes long to accommodate the deserialized value.
 */
uint32_t Utils_deserialize24BE(const byte_t* buf);

/**
 * @brief Deserializes a 32-bit value from a big-endian byte buffer.
 *
 * @param buf[in] Pointer to the input byte buffer containing the serialized value.
 * @return The deserialized 32-bit value.
 *
 * @note The buffer must be at least 4 bytes long to accommodate the deserialized value.
 */
uint32_t Utils_deserialize32BE(const byte_t* buf);

/**
 * @brief Deserializes a blob(binary large object) in big-endian format.
 *
 * @param[in] buf The source buffer containing the blob to deserialize.
 * @param[out] dst The destination buffer where the deserialized blob will be stored.
 * @param[in] size The size in bytes of the blob to deserialize.
 */
void Utils_deserializeBlobBE(const byte_t* buf, byte_t* dst, uint32_t size);

/**
 * @brief Serialize a 16-bit value in little-endian format into a buffer.
 *
 * @param buf[out] Pointer to the buffer where the serialized value will be written.
 * @param value[in] The 16-bit value to be serialized.
 *
 * @note The buffer must be at least 2 bytes long to accommodate the serialized value.
 */
void Utils_serialize16LE(byte_t* buf, uint16_t value);

/**
 * @brief Serialize a 24-bit value in little-endian format into a buffer.
 *
 * @param buf[out] Pointer to the buffer where the serialized value will be written.
 * @param value[in] The 24-bit value to be serialized.
 *
 * @note The buffer must be at least 3 bytes long to accommodate the serialized value.
 */
void Utils_serialize24LE(byte_t* buf, uint32_t value);

/**
 * @brief Serialize a 32-bit value in little-endian format into a buffer.
 *
 * @param buf Pointer to the buffer where the serialized value will be written.
 * @param value[in] The 32-bit value to be serialized.
 *
 * @note The buffer must be at least 4 bytes long to accommodate the serialized value.
 */
void Utils_serialize32LE(byte_t* buf, uint32_t value);

/**
 * @brief Serialize a blob of data in little-endian format.
 *
 * This function serializes a blob(binary large object) of data in little-endian format.
 *
 * @param[out] buf Pointer to the output buffer where serialized data will be written.
 * @param[in] src Pointer to the source data buffer to be serialized.
 * @param[in] size Number of bytes to be serialized.
 */
void Utils_serializeBlobLE(byte_t* buf, const byte_t* src, uint32_t size);

/**
 * @brief Deserializes a 16-bit value from a little-endian byte buffer.
 *
 * @param buf[in] Pointer to the input byte buffer containing the serialized value.
 * @return The deserialized 16-bit value.
 *
 * @note The buffer must be at least 2 bytes long to accommodate the deserialized value.
 */
uint16_t Utils_deserialize16LE(const byte_t* buf);

/**
 * @brief Deserializes a 24-bit value from a little-endian byte buffer.
 *
 * @param buf[in] Pointer to the input byte buffer containing the serialized value.
 * @return The deserialized 24-bit value.
 *
 * @note The buffer must be at least 3 bytes long to accommodate the deserialized value.
 */
uint32_t Utils_deserialize24LE(const byte_t* buf);

/**
 * @brief Deserializes a 32-bit value from a little-endian byte buffer.
 *
 * @param buf[in] Pointer to the input byte buffer containing the serialized value.
 * @return The deserialized 32-bit value.
 *
 * @note The buffer must be at least 4 bytes long to accommodate the deserialized value.
 */
uint32_t Utils_deserialize32LE(const byte_t* buf);

/**
 * @brief Deserializes a blob(binary large object) in little-endian format.
 *
 * @param[in] buf The source buffer containing the blob to deserialize.
 * @param[out] dst The destination buffer where the deserialized blob will be stored.
 * @param[in] size The size in bytes of the blob to deserialize.
 */
void Utils_deserializeBlobLE(const byte_t* buf, byte_t* dst, uint32_t size);

/**
 * @brief Check if the given character is upper alphabetical letter.
 *
 * @param[in] input Input character.
 *
 * @return True if given character is upper alphabetical letter, otherwise false.
 */
bool Utils_isUpperChar(char input);

/**
 * @brief Check if the given character is lower alphabetical letter.
 *
 * @param[in] input Input character.
 *
 * @return True if given character is lower alphabetical letter, otherwise false.
 */
bool Utils_isLowerChar(char input);

/**
 * @brief Check if the given character is alphabetical letter.
 *
 * @param[in] input Input character.
 *
 * @return True if given character is alphabetical letter, otherwise false.
 */
bool Utils_isAlpha(char input);

#endif /* UTILITY_UTILS_H_ */
".

(** Inc/bit_manipulation.h *)
Definition text_bit_manipulation_h : string :=
"/****************************************************************************
 *
 *   Copyright (c) 2023 IMProject Development Team. All rights reserved.
 *   Authors: Juraj Ciberlin <jciberlin1@gmail.com>
 *
 * Redistribution and use in source and binary forms, with or without
 * modification, are permitted provided that the following conditions
 * are met:
 *
 * 1. Redistributions of source code must retain the above copyright
 *    notice, this list of conditions and the following disclaimer.
 * 2. Redistributions in binary form must reproduce the above copyright
 *    notice, this list of conditions and the following disclaimer in
 *    the documentation and/or other materials provided with the
 *    distribution.
 * 3. Neither the name IMProject nor the names of its contributors may be
 *    used to endorse or promote products derived from this software
 *    without specific prior written permission.
 *
 * THIS SOFTWARE IS PROVIDED BY THE COPYRIGHT HOLDERS AND CONTRIBUTORS
 * ""AS IS"" AND ANY EXPRESS OR IMPLIED WARRANTIES, INCLUDING, BUT NOT
 * LIMITED TO, THE IMPLIED WARRANTIES OF MERCHANTABILITY AND FITNESS
 * FOR A PARTICULAR PURPOSE ARE DISCLAIMED. IN NO EVENT SHALL THE
 * COPYRIGHT OWNER OR CONTRIBUTORS BE LIABLE FOR ANY DIRECT, INDIRECT,
 * INCIDENTAL, SPECIAL, EXEMPLARY, OR CONSEQUENTIAL DAMAGES (INCLUDING,
 * BUT NOT LIMITED TO, PROCUREMENT OF SUBSTITUTE GOODS OR SERVICES; LOSS
 * OF USE, DATA, OR PROFITS; OR BUSINESS INTERRUPTION) HOWEVER CAUSED
 * AND ON ANY THEORY OF LIABILITY, WHETHER IN CONTRACT, STRICT
 * LIABILITY, OR TORT (INCLUDING NEGLIGENCE OR OTHERWISE) ARISING IN
 * ANY WAY OUT OF THE USE OF THIS SOFTWARE, EVEN IF ADVISED OF THE
 * POSSIBILITY OF SUCH DAMAGE.
 *
 ****************************************************************************/

#ifndef UTILITY_BIT_MANIPULATION_H_
#define UTILITY_BIT_MANIPULATION_H_

#include ""typedefs.h""

/**
 * @brief This function reflects the bits in data around the center bit.
 *
 * @param[in] data The input data to be reflected.
 * @param[in] n_bits The number of bits in the input data to be reflected.
 *
 * @return The reflected data.
 */
uint32_t BitManipulation_reflect(uint32_t data, uint8_t n_bits);

/**
 * @brief This function checks if the bit at nth position is set. Parameter n must be between 0 and 31.
 *
 * @param[in] data The input data.
 * @param[in] n The position of the bit in the input data that will be checked.
 * @param[out] *bit_set True if bit at nth position is set, otherwise false.
 *
 * @return True if function is successfully performed, otherwise false.
 */
bool BitManipulation_bitSet(uint32_t data, uint8_t n, bool* bit_set);

/**
 * @brief This function sets the bit at nth position and returns the result. Parameter n must be between 0 and 31.
 *
 * @param[in] data The input data.
 * @param[in] n The position of the bit in the input data that will be set.
 * @param[out] *out The result of the input data where the bit at the nth position is set.
 *
 * @return True if function is successfully performed, otherwise false.
 */
bool BitManipulation_setBit(uint32_t data, uint8_t n, uint32_t* out);

/**
 * @brief This function clears the bit at nth position and returns the result. Parameter n must be between 0 and 31.
 *
 * @param[in] data The input data.
 * @param[in] n The position of the bit in the input data that will be cleared.
 * @param[out] *out The result of the input data where the bit at the nth position is cleared.
 *
 * @return True if function is successfully performed, otherwise false.
 */
bool BitManipulation_clearBit(uint32_t data, uint8_t n, uint32_t* out);

/**
 * @brief This function toggles the bit at nth position and returns the result. Parameter n must be between 0 and 31.
 *
 * @param[in] data The input data.
 * @param[in] n The position of the bit in the input data that will be toggled.
 * @param[out] *out The result of the input data where the bit at the nth position is toggled.
 *
 * @return True if function is successfully performed, otherwise false.
 */
bool BitManipulation_toggleBit(uint32_t data, uint8_t n, uint32_t* out);


/**
 * @brief This function rotates the bits of a 32-bit variable to the left.
 *
 * @param[in] data The input data to rotate.
 * @param[in] n_bits The number of bits in the data to be rotated.
 *
 * @return The rotated data.
 */
uint32_t BitManipulation_rotl32(uint32_t data, uint32_t n_bits);

#endif /* UTILITY_BIT_MANIPULATION_H_ */
".

(** Inc/base64.h *)
Definition text_base64_h : string :=
"#ifndef UTILITY_BASE64_H_
#define UTILITY_BASE64_H_

#include ""typedefs.h""

#include <string.h>

/**
 * @brief Base64 encode function.
 *
 * @param[in] *data Pointer to data that will be encoded.
 * @param[in] data_length Data length.
 * @param[out] *result Pointer to result, encoded data.
 * @param[in] max_result_length Maximum result length.
 *
 * @return 0 = success, in case of fail value different than 0 is returned.
 */
int32_t Base64_encode(const char* data, size_t data_length, char* result, size_t max_result_length);

/**
 * @brief Base64 decode function.
 *
 * @param[in] *in Pointer to data that will be decoded.
 * @param[in] in_len Input data length.
 * @param[out] *out Pointer to result data, decoded data.
 * @param[in] max_out_len Maximum output length.
 *
 * @return 0 = success, in case of fail value different than 0 is returned.
 */
int32_t Base64_decode(const char* in, size_t in_len, uint8_t* out, size_t max_out_len);

#endif /* UTILITY_BASE64_H_ */
".

(** Inc/queue.h *)
Definition text_queue_h : string :=
"/****************************************************************************
 *
 *   Copyright (c) 2022 IMProject Development Team. All rights reserved.
 *   Authors: Juraj Ciberlin <jciberlin1@gmail.com>
 *
 * Redistribution and use in source and binary forms, with or without
 * modification, are permitted provided that the following conditions
 * are met:
 *
 * 1. Redistributions of source code must retain the above copyright
 *    notice, this list of conditions and the following disclaimer.
 * 2. Redistributions in binary form must reproduce the above copyright
 *    notice, this list of conditions and the following disclaimer in
 *    the documentation and/or other materials provided with the
 *    distribution.
 * 3. Neither the name IMProject nor the names of its contributors may be
 *    used to endorse or promote products derived from this software
 *    without specific prior written permission.
 *
 * THIS SOFTWARE IS PROVIDED BY THE COPYRIGHT HOLDERS AND CONTRIBUTORS
 * ""AS IS"" AND ANY EXPRESS OR IMPLIED WARRANTIES, INCLUDING, BUT NOT
 * LIMITED TO, THE IMPLIED WARRANTIES OF MERCHANTABILITY AND FITNESS
 * FOR A PARTICULAR PURPOSE ARE DISCLAIMED. IN NO EVENT SHALL THE
 * COPYRIGHT OWNER OR CONTRIBUTORS BE LIABLE FOR ANY DIRECT, INDIRECT,
 * INCIDENTAL, SPECIAL, EXEMPLARY, OR CONSEQUENTIAL DAMAGES (INCLUDING,
 * BUT NOT LIMITED TO, PROCUREMENT OF SUBSTITUTE GOODS OR SERVICES; LOSS
 * OF USE, DATA, OR PROFITS; OR BUSINESS INTERRUPTION) HOWEVER CAUSED
 * AND ON ANY THEORY OF LIABILITY, WHETHER IN CONTRACT, STRICT
 * LIABILITY, OR TORT (INCLUDING NEGLIGENCE OR OTHERWISE) ARISING IN
 * ANY WAY OUT OF THE USE OF THIS SOFTWARE, EVEN IF ADVISED OF THE
 * POSSIBILITY OF SUCH DAMAGE.
 *
 ****************************************************************************/

#ifndef UTILITY_QUEUE_H_
#define UTILITY_QUEUE_H_

#include ""typedefs.h""

typedef struct {
    uint32_t front;
    uint32_t rear;
    uint32_t size;
    uint32_t capacity;
    uint32_t element_size;
    uint8_t* buffer;
} Queue_t;

/**
 * @brief Initialize queue.
 *
 * @param[out] *queue Pointer to queue (type Queue_t).
 * @param[in] capacity Queue capacity.
 * @param[in] element_size Size of the element, in bytes.
 * @param[in] *buffer Pointer to buffer where new elements will be saved.
 *
 * @return True if queue is successfully initialized, otherwise false.
 */
bool Queue_init(Queue_t* queue, uint32_t capacity, uint32_t element_size, uint8_t* buffer);

/**
 * @brief Check if queue is full.
 *
 * @param[in] *queue Pointer to queue (type Queue_t).
 *
 * @return True if queue is full, otherwise false.
 */
bool Queue_full(const Queue_t* queue);

/**
 * @brief Check if queue is empty.
 *
 * @param[in] *queue Pointer to queue (type Queue_t).
 *
 * @return True if queue is empty, otherwise false.
 */
bool Queue_empty(const Queue_t* queue);

/**
 * @brief Insert an element at the end of the queue.
 *
 * @param[in] *queue Pointer to queue (type Queue_t).
 * @param[in] *element Pointer to element that will be inserted in the queue.
 *
 * @return True if element is successfully inserted, otherwise false.
 */
bool Queue_enqueue(Queue_t* queue, const uint8_t* element);

/**
 * @brief Remove element from the end of the queue.
 *
 * @param[in] *queue Pointer to queue (type Queue_t).
 * @param[out] *element Pointer to element. Removed element will be saved here.
 *
 * @return True if element is successfully removed, otherwise false.
 */
bool Queue_dequeue(Queue_t* queue, uint8_t* element);

/**
 * @brief Get the element from the front of the queue. Element will not be removed.
 *
 * @param[in] *queue Pointer to queue (type Queue_t).
 * @param[out] *element Pointer to element. Front element will be saved here.
 *
 * @return True if front element is successfully fetched, otherwise false.
 */
bool Queue_front(const Queue_t* queue, uint8_t* element);

/**
 * @brief Get the element from the rear of the queue. Element will not be removed.
 *
 * @param[in] *queue Pointer to queue (type Queue_t).
 * @param[out] *element Pointer to element. Rear element will be saved here.
 *
 * @return True if rear element is successfully fetched, otherwise false.
 */
bool Queue_rear(const Queue_t* queue, uint8_t* element);

#endif /* UTILITY_QUEUE_H_ */
".

(** Inc/priority_queue.h *)
Definition text_priority_queue_h : string :=
"/****************************************************************************
 *
 *   Copyright (c) 2022 IMProject Development Team. All rights reserved.
 *   Authors: Juraj Ciberlin <jciberlin1@gmail.com>
 *
 * Redistribution and use in source and binary forms, with or without
 * modification, are permitted provided that the following conditions
 * are met:
 *
 * 1. Redistributions of source code must retain the above copyright
 *    notice, this list of conditions and the following disclaimer.
 * 2. Redistributions in binary form must reproduce the above copyright
 *    notice, this list of conditions and the following disclaimer in
 *    the documentation and/or other materials provided with the
 *    distribution.
 * 3. Neither the name IMProject nor the names of its contributors may be
 *    used to endorse or promote products derived from this software
 *    without specific prior written permission.
 *
 * THIS SOFTWARE IS PROVIDED BY THE COPYRIGHT HOLDERS AND CONTRIBUTORS
 * ""AS IS"" AND ANY EXPRESS OR IMPLIED WARRANTIES, INCLUDING, BUT NOT
 * LIMITED TO, THE IMPLIED WARRANTIES OF MERCHANTABILITY AND FITNESS
 * FOR A PARTICULAR PURPOSE ARE DISCLAIMED. IN NO EVENT SHALL THE
 * COPYRIGHT OWNER OR CONTRIBUTORS BE LIABLE FOR ANY DIRECT, INDIRECT,
 * INCIDENTAL, SPECIAL, EXEMPLARY, OR CONSEQUENTIAL DAMAGES (INCLUDING,
 * BUT NOT LIMITED TO, PROCUREMENT OF SUBSTITUTE GOODS OR SERVICES; LOSS
 * OF USE, DATA, OR PROFITS; OR BUSINESS INTERRUPTION) HOWEVER CAUSED
 * AND ON ANY THEORY OF LIABILITY, WHETHER IN CONTRACT, STRICT
 * LIABILITY, OR TORT (INCLUDING NEGLIGENCE OR OTHERWISE) ARISING IN
 * ANY WAY OUT OF THE USE OF THIS SOFTWARE, EVEN IF ADVISED OF THE
 * POSSIBILITY OF SUCH DAMAGE.
 *
 ****************************************************************************/

#ifndef UTILITY_PRIORITY_QUEUE_H_
#define UTILITY_PRIORITY_QUEUE_H_

#include ""typedefs.h""

typedef struct {
    uint32_t* priority;
    uint8_t* element;
} PriorityQueueItem_t;

typedef struct {
    uint32_t size;
    uint32_t capacity;
    uint32_t element_size;
    uint32_t* priority_array;
    uint8_t* buffer;
} PriorityQueue_t;

/**
 * @brief Initialize priority queue.
 *
 * @param[out] *queue Pointer to priority queue (type PriorityQueue_t).
 * @param[in] capacity Priority queue capacity.
 * @param[in] element_size Size of the element, in bytes.
 * @param[in] *items Pointer to items where all new elements will be stored (priority + *element).
 *
 * @return True if priority queue is successfully initialized, otherwise false.
 */
bool PriorityQueue_init(PriorityQueue_t* queue, uint32_t capacity, uint32_t element_size,
                        const PriorityQueueItem_t* items);

/**
 * @brief Check if priority queue is empty.
 *
 * @param[in] *queue Pointer to priority queue (type PriorityQueue_t).
 *
 * @return True if priority queue is empty, otherwise false.
 */
bool PriorityQueue_empty(const PriorityQueue_t* queue);

/**
 * @brief Insert an element at the end of the priority queue. If priority queue is full,
 * check if the new element has higher priority than the lowest priority in the priority queue,
 * if yes, remove the element with the lowest priority from the priority queue and insert the new
 * element at the end of the priority queue.
 *
 * @param[in] *queue Pointer to priority queue (type PriorityQueue_t).
 * @param[in] *item Pointer to the item that will be inserted in the priority queue.
 *
 * @return True if element is successfully inserted, otherwise false.
 */
bool PriorityQueue_enqueue(PriorityQueue_t* queue, const PriorityQueueItem_t* item);

/**
 * @brief Remove the element with the highest priority from the priority queue.
 *
 * @param[in] *queue Pointer to priority queue (type PriorityQueue_t).
 * @param[out] *element Pointer to element. Removed element will be stored here.
 *
 * @return True if element is successfully removed, otherwise false.
 */
bool PriorityQueue_dequeue(PriorityQueue_t* queue, uint8_t* element);

#endif /* UTILITY_PRIORITY_QUEUE_H_ */
".

(** Inc/map.h *)
Definition text_map_h : string :=
"/****************************************************************************
 *
 *   Copyright (c) 2023 IMProject Development Team. All rights reserved.
 *   Authors: Juraj Ciberlin <jciberlin1@gmail.com>
 *
 * Redistribution and use in source and binary forms, with or without
 * modification, are permitted provided that the following conditions
 * are met:
 *
 * 1. Redistributions of source code must retain the above copyright
 *    notice, this list of conditions and the following disclaimer.
 * 2. Redistributions in binary form must reproduce the above copyright
 *    notice, this list of conditions and the following disclaimer in
 *    the documentation and/or other materials provided with the
 *    distribution.
 * 3. Neither the name IMProject nor the names of its contributors may be
 *    used to endorse or promote products derived from this software
 *    without specific prior written permission.
 *
 * THIS SOFTWARE IS PROVIDED BY THE COPYRIGHT HOLDERS AND CONTRIBUTORS
 * ""AS IS"" AND ANY EXPRESS OR IMPLIED WARRANTIES, INCLUDING, BUT NOT
 * LIMITED TO, THE IMPLIED WARRANTIES OF MERCHANTABILITY AND FITNESS
 * FOR A PARTICULAR PURPOSE ARE DISCLAIMED. IN NO EVENT SHALL THE
 * COPYRIGHT OWNER OR CONTRIBUTORS BE LIABLE FOR ANY DIRECT, INDIRECT,
 * INCIDENTAL, SPECIAL, EXEMPLARY, OR CONSEQUENTIAL DAMAGES (INCLUDING,
 * BUT NOT LIMITED TO, PROCUREMENT OF SUBSTITUTE GOODS OR SERVICES; LOSS
 * OF USE, DATA, OR PROFITS; OR BUSINESS INTERRUPTION) HOWEVER CAUSED
 * AND ON ANY THEORY OF LIABILITY, WHETHER IN CONTRACT, STRICT
 * LIABILITY, OR TORT (INCLUDING NEGLIGENCE OR OTHERWISE) ARISING IN
 * ANY WAY OUT OF THE USE OF THIS SOFTWARE, EVEN IF ADVISED OF THE
 * POSSIBILITY OF SUCH DAMAGE.
 *
 ****************************************************************************/

#ifndef UTILITY_MAP_H_
#define UTILITY_MAP_H_

#include ""typedefs.h""

typedef struct {
    byte_t* keys;
    byte_t* values;
    int32_t key_size;
    int32_t value_size;
    int32_t max_map_size;
    int32_t current_size;
} Map_t;

/**
 * @brief Initialize map.
 *
 * @param[out] *map Pointer to the map (type Map_t).
 * @param[in] *keys Pointer to keys in the map.
 * @param[in] *values Pointer to values in the map.
 * @param[in] key_size Size of the key in the map.
 * @param[in] value_size Size of the value in the map.
 * @param[in] max_map_size Max size of the map.
 *
 * @return True if map is successfully initialized, otherwise false.
 */
bool Map_init(Map_t* map, byte_t* keys, byte_t* values, int32_t key_size, int32_t value_size,
              int32_t max_map_size);

/**
 * @brief Insert new element in the map.
 *
 * @param[in/out] *map Pointer to the map (type Map_t).
 * @param[in] *key Pointer to the key that will be inserted in the map.
 * @param[in] *value Pointer to the value that will be inserted in the map.
 *
 * @return True if new element is successfully inserted in the map, otherwise false.
 */
bool Map_insert(Map_t* map, const byte_t* key, const byte_t* value);

/**
 * @brief Get a value from the map using the key.
 *
 * @param[in] *map Pointer to the map (type Map_t).
 * @param[in] *key Pointer to the key.
 * @param[out] *value Pointer to the value that is mapped with the particular key.
 *
 * @return True if the value is successfully gotten using the key, otherwise false.
 */
bool Map_getValue(const Map_t* map, const byte_t* key, byte_t* value);

#endif /* UTILITY_MAP_H_ */
".

(** Inc/scheduler.h *)
Definition text_scheduler_h : string :=
"/****************************************************************************
 *
 *   Copyright (c) 2023 IMProject Development Team. All rights reserved.
 *   Authors: Juraj Ciberlin <jciberlin1@gmail.com>
 *
 * Redistribution and use in source and binary forms, with or without
 * modification, are permitted provided that the following conditions
 * are met:
 *
 * 1. Redistributions of source code must retain the above copyright
 *    notice, this list of conditions and the following disclaimer.
 * 2. Redistributions in binary form must reproduce the above copyright
 *    notice, this list of conditions and the following disclaimer in
 *    the documentation and/or other materials provided with the
 *    distribution.
 * 3. Neither the name IMProject nor the names of its contributors may be
 *    used to endorse or promote products derived from this software
 *    without specific prior written permission.
 *
 * THIS SOFTWARE IS PROVIDED BY THE COPYRIGHT HOLDERS AND CONTRIBUTORS
 * ""AS IS"" AND ANY EXPRESS OR IMPLIED WARRANTIES, INCLUDING, BUT NOT
 * LIMITED TO, THE IMPLIED WARRANTIES OF MERCHANTABILITY AND FITNESS
 * FOR A PARTICULAR PURPOSE ARE DISCLAIMED. IN NO EVENT SHALL THE
 * COPYRIGHT OWNER OR CONTRIBUTORS BE LIABLE FOR ANY DIRECT, INDIRECT,
 * INCIDENTAL, SPECIAL, EXEMPLARY, OR CONSEQUENTIAL DAMAGES (INCLUDING,
 * BUT NOT LIMITED TO, PROCUREMENT OF SUBSTITUTE GOODS OR SERVICES; LOSS
 * OF USE, DATA, OR PROFITS; OR BUSINESS INTERRUPTION) HOWEVER CAUSED
 * AND ON ANY THEORY OF LIABILITY, WHETHER IN CONTRACT, STRICT
 * LIABILITY, OR TORT (INCLUDING NEGLIGENCE OR OTHERWISE) ARISING IN
 * ANY WAY OUT OF THE USE OF THIS SOFTWARE, EVEN IF ADVISED OF THE
 * POSSIBILITY OF SUCH DAMAGE.
 *
 ****************************************************************************/

#ifndef UTILITY_SCHEDULER_H_
#define UTILITY_SCHEDULER_H_

#include ""typedefs.h""

typedef struct {
    void (*function)(void);
    bool active;
} SchedulerTask_t;

/**
 * @brief Function used to initialize scheduler.
 *
 * @param[in, out] *tasks Pointer to tasks (tasks are represented as a structure that contains
 *                        pointer to function and status (active/not active)).
 * @param[in] num_of_tasks Number of tasks that will be initialized.
 */
void Scheduler_init(SchedulerTask_t* tasks, uint32_t num_of_tasks);

/**
 * @brief Function used to add new task in scheduler.
 *
 * @param[in, out] *tasks Pointer to tasks (array of tasks).
 * @param[in] max_num_tasks Maximum number of tasks that can be added in scheduler.
 * @param[in] *new_task Pointer to new task that will be added in scheduler.
 *
 * @return True if task is successfully added, otherwise false.
 */
bool Scheduler_addTask(SchedulerTask_t* tasks, uint32_t max_num_tasks, const SchedulerTask_t* new_task);

/**
 * @brief Function used to run tasks. Tasks will be performed only once, and only active tasks.
 *
 * @param[in] *task Pointer to tasks (array of tasks).
 * @param[in] num_of_tasks Number of tasks that will be performed.
 */
void Scheduler_run(const SchedulerTask_t* task, uint32_t num_of_tasks);

#endif /* UTILITY_SCHEDULER_H_ */
".

(** Inc/json.h *)
Definition text_json_h : string :=
"/****************************************************************************
 *
 *   Copyright (c) 2021-2023 IMProject Development Team. All rights reserved.
 *   Authors: Igor Misic <igy1000mb@gmail.com>
 *
 * Redistribution and use in source and binary forms, with or without
 * modification, are permitted provided that the following conditions
 * are met:
 *
 * 1. Redistributions of source code must retain the above copyright
 *    notice, this list of conditions and the following disclaimer.
 * 2. Redistributions in binary form must reproduce the above copyright
 *    notice, this list of conditions and the following disclaimer in
 *    the documentation and/or other materials provided with the
 *    distribution.
 * 3. Neither the name IMProject nor the names of its contributors may be
 *    used to endorse or promote products derived from this software
 *    without specific prior written permission.
 *
 * THIS SOFTWARE IS PROVIDED BY THE COPYRIGHT HOLDERS AND CONTRIBUTORS
 * ""AS IS"" AND ANY EXPRESS OR IMPLIED WARRANTIES, INCLUDING, BUT NOT
 * LIMITED TO, THE IMPLIED WARRANTIES OF MERCHANTABILITY AND FITNESS
 * FOR A PARTICULAR PURPOSE ARE DISCLAIMED. IN NO EVENT SHALL THE
 * COPYRIGHT OWNER OR CONTRIBUTORS BE LIABLE FOR ANY DIRECT, INDIRECT,
 * INCIDENTAL, SPECIAL, EXEMPLARY, OR CONSEQUENTIAL DAMAGES (INCLUDING,
 * BUT NOT LIMITED TO, PROCUREMENT OF SUBSTITUTE GOODS OR SERVICES; LOSS
 * OF USE, DATA, OR PROFITS; OR BUSINESS INTERRUPTION) HOWEVER CAUSED
 * AND ON ANY THEORY OF LIABILITY, WHETHER IN CONTRACT, STRICT
 * LIABILITY, OR TORT (INCLUDING NEGLIGENCE OR OTHERWISE) ARISING IN
 * ANY WAY OUT OF THE USE OF THIS SOFTWARE, EVEN IF ADVISED OF THE
 * POSSIBILITY OF SUCH DAMAGE.
 *
 ****************************************************************************/

#ifndef UTILITY_JSON_H_
#define UTILITY_JSON_H_

#include <string.h>

#include ""typedefs.h""

/**
 * @brief Start a JSON string in the given buffer
 *
 * This function starts a JSON string in the provided buffer by copying the opening brace character ""{""
 * to the beginning of the buffer. The function will set the success flag to true if the buffer size
 * is greater than or equal to the minimum size required to hold the opening brace character.
 *
 * @param buffer The buffer to write the JSON string to
 * @param buffer_size The size of the buffer in bytes
 * @return Returns true if the JSON string was successfully started, false otherwise
 */
bool Json_startString(char* buffer, size_t buffer_size);

/**
 * @brief Add key-value pair to JSON string in the given buffer
 *
 * This function adds a key-value pair to the JSON string in the provided buffer by concatenating the
 * key and value strings with their respective formatting characters to the end of the buffer. The
 * function will set the success flag to true if the resulting string size does not exceed the buffer
 * size and if the key-value pair is successfully added to the JSON string.
 *
 * @param buffer The buffer to write the JSON string to
 * @param buffer_size The size of the buffer in bytes
 * @param key The key string to add to the JSON object
 * @param value The value string to add to the JSON object
 * @return Returns true if the key-value pair was successfully added to the JSON string, false otherwise
 */
bool Json_addData(char* buffer, size_t buffer_size, const char* key, const char* value);

/**
 * @brief End a JSON string in the given buffer
 *
 * This function adds the closing brace character to the end of the JSON string in the provided buffer.
 * The function will set the success flag to true if the resulting string size does not exceed the buffer
 * size and if the closing brace character is successfully added to the JSON string.
 *
 * @param buffer The buffer to write the JSON string to
 * @param buffer_size The size of the buffer in bytes
 * @return Returns true if the JSON string was successfully ended with a closing brace character, false otherwise
 */
bool Json_endString(char* buffer, size_t buffer_size);

/**
 * @brief Searches for a key in a JSON buffer and returns its value.
 *
 * @param buffer The JSON buffer to search.
 * @param buffer_size The size of the buffer.
 * @param key The key to search for.
 * @param value The output buffer for the value.
 * @param max_value_size The maximum size of the value buffer.
 * @return true If the key was found and the value was copied to the output buffer.
 * @return false If the key was not found or the output buffer was too small.
 */
bool Json_findByKey(const char* buffer, size_t buffer_size, const char* key, char* value, size_t max_value_size);


#endif /* UTILITY_JSON_H_ */
".

(** Inc/sort/bubble_sort.h *)
Definition text_bubble_sort_h : string :=
"/****************************************************************************
 *
 *   Copyright (c) 2023 IMProject Development Team. All rights reserved.
 *   Authors: Juraj Ciberlin <jciberlin1@gmail.com>
 *
 * Redistribution and use in source and binary forms, with or without
 * modification, are permitted provided that the following conditions
 * are met:
 *
 * 1. Redistributions of source code must retain the above copyright
 *    notice, this list of conditions and the following disclaimer.
 * 2. Redistributions in binary form must reproduce the above copyright
 *    notice, this list of conditions and the following disclaimer in
 *    the documentation and/or other materials provided with the
 *    distribution.
 * 3. Neither the name IMProject nor the names of its contributors may be
 *    used to endorse or promote products derived from this software
 *    without specific prior written permission.
 *
 * THIS SOFTWARE IS PROVIDED BY THE COPYRIGHT HOLDERS AND CONTRIBUTORS
 * ""AS IS"" AND ANY EXPRESS OR IMPLIED WARRANTIES, INCLUDING, BUT NOT
 * LIMITED TO, THE IMPLIED WARRANTIES OF MERCHANTABILITY AND FITNESS
 * FOR A PARTICULAR PURPOSE ARE DISCLAIMED. IN NO EVENT SHALL THE
 * COPYRIGHT OWNER OR CONTRIBUTORS BE LIABLE FOR ANY DIRECT, INDIRECT,
 * INCIDENTAL, SPECIAL, EXEMPLARY, OR CONSEQUENTIAL DAMAGES (INCLUDING,
 * BUT NOT LIMITED TO, PROCUREMENT OF SUBSTITUTE GOODS OR SERVICES; LOSS
 * OF USE, DATA, OR PROFITS; OR BUSINESS INTERRUPTION) HOWEVER CAUSED
 * AND ON ANY THEORY OF LIABILITY, WHETHER IN CONTRACT, STRICT
 * LIABILITY, OR TORT (INCLUDING NEGLIGENCE OR OTHERWISE) ARISING IN
 * ANY WAY OUT OF THE USE OF THIS SOFTWARE, EVEN IF ADVISED OF THE
 * POSSIBILITY OF SUCH DAMAGE.
 *
 ****************************************************************************/

#ifndef UTILITY_BUBBLE_SORT_H_
#define UTILITY_BUBBLE_SORT_H_

#include ""typedefs.h""

/**
 * @brief Sort elements using bubble sort algorithm.
 *
 * @param[in/out] *buffer Pointer to the buffer that contains elements that will be sorted.
 * @param[in] number_of_elements Number of elements in the buffer.
 * @param[in] element_size Size of the element, in bytes.
 * @param[in] *compareFun Pointer to compare function. Compare function has two parameters (pointer to
 *                        first element and pointer to second element). As a result, it returns boolean,
 *                        true if first element is greater than second element, otherwise false.
 */
void BubbleSort_sort(byte_t* buffer, int32_t number_of_elements, int32_t element_size,
                     bool (*compareFun)(void* first, void* second));

#endif /* UTILITY_BUBBLE_SORT_H_ */
".

(** Inc/sort/insertion_sort.h *)
Definition text_insertion_sort_h : string :=
"/****************************************************************************
 *
 *   Copyright (c) 2024 IMProject Development Team. All rights reserved.
 *   Authors: Juraj Ciberlin <jciberlin1@gmail.com>
 *
 * Redistribution and use in source and binary forms, with or without
 * modification, are permitted provided that the following conditions
 * are met:
 *
 * 1. Redistributions of source code must retain the above copyright
 *    notice, this list of conditions and the following disclaimer.
 * 2. Redistributions in binary form must reproduce the above copyright
 *    notice, this list of conditions and the following disclaimer in
 *    the documentation and/or other materials provided with the
 *    distribution.
 * 3. Neither the name IMProject nor the names of its contributors may be
 *    used to endorse or promote products derived from this software
 *    without specific prior written permission.
 *
 * THIS SOFTWARE IS PROVIDED BY THE COPYRIGHT HOLDERS AND CONTRIBUTORS
 * ""AS IS"" AND ANY EXPRESS OR IMPLIED WARRANTIES, INCLUDING, BUT NOT
 * LIMITED TO, THE IMPLIED WARRANTIES OF MERCHANTABILITY AND FITNESS
 * FOR A PARTICULAR PURPOSE ARE DISCLAIMED. IN NO EVENT SHALL THE
 * COPYRIGHT OWNER OR CONTRIBUTORS BE LIABLE FOR ANY DIRECT, INDIRECT,
 * INCIDENTAL, SPECIAL, EXEMPLARY, OR CONSEQUENTIAL DAMAGES (INCLUDING,
 * BUT NOT LIMITED TO, PROCUREMENT OF SUBSTITUTE GOODS OR SERVICES; LOSS
 * OF USE, DATA, OR PROFITS; OR BUSINESS INTERRUPTION) HOWEVER CAUSED
 * AND ON ANY THEORY OF LIABILITY, WHETHER IN CONTRACT, STRICT
 * LIABILITY, OR TORT (INCLUDING NEGLIGENCE OR OTHERWISE) ARISING IN
 * ANY WAY OUT OF THE USE OF THIS SOFTWARE, EVEN IF ADVISED OF THE
 * POSSIBILITY OF SUCH DAMAGE.
 *
 ****************************************************************************/

#ifndef UTILITY_INSERTION_SORT_H_
#define UTILITY_INSERTION_SORT_H_

#include ""typedefs.h""

#define MAX_ELEMENT_SIZE (64)

/**
 * @brief Sort elements using insertion sort algorithm. Insertion sort algorithm is a simple
 * sorting algorithm that has O(N^2) time complexity. It is efficient on smaller lists, and
 * much less efficient on large lists.
 *
 * NOTE: implemented that the max element size is 64 B. If element size is larger, then
 * MAX_ELEMENT_SIZE macro must be updated.
 *
 * @param[in/out] *buffer Pointer to the buffer that contains elements that will be sorted.
 * @param[in] number_of_elements Number of elements in the buffer.
 * @param[in] element_size Size of the element, in bytes.
 * @param[in] *compareFun Pointer to compare function. Compare function has two parameters (pointer to
 *                        first element and pointer to second element). As a result, it returns boolean,
 *                        true if first element is greater than second element, otherwise false.
 */
void InsertionSort_sort(byte_t* buffer, int32_t number_of_elements, int32_t element_size,
                        bool (*compareFun)(void* first, void* second));

#endif /* UTILITY_INSERTION_SORT_H_ */
".

(** Inc/sort/selection_sort.h *)
Definition text_selection_sort_h : string :=
"/****************************************************************************
 *
 *   Copyright (c) 2023 IMProject Development Team. All rights reserved.
 *   Authors: Juraj Ciberlin <jciberlin1@gmail.com>
 *
 * Redistribution and use in source and binary forms, with or without
 * modification, are permitted provided that the following conditions
 * are met:
 *
 * 1. Redistributions of source code must retain the above copyright
 *    notice, this list of conditions and the following disclaimer.
 * 2. Redistributions in binary form must reproduce the above copyright
 *    notice, this list of conditions and the following disclaimer in
 *    the documentation and/or other materials provided with the
 *    distribution.
 * 3. Neither the name IMProject nor the names of its contributors may be
 *    used to endorse or promote products derived from this software
 *    without specific prior written permission.
 *
 * THIS SOFTWARE IS PROVIDED BY THE COPYRIGHT HOLDERS AND CONTRIBUTORS
 * ""AS IS"" AND ANY EXPRESS OR IMPLIED WARRANTIES, INCLUDING, BUT NOT
 * LIMITED TO, THE IMPLIED WARRANTIES OF MERCHANTABILITY AND FITNESS
 * FOR A PARTICULAR PURPOSE ARE DISCLAIMED. IN NO EVENT SHALL THE
 * COPYRIGHT OWNER OR CONTRIBUTORS BE LIABLE FOR ANY DIRECT, INDIRECT,
 * INCIDENTAL, SPECIAL, EXEMPLARY, OR CONSEQUENTIAL DAMAGES (INCLUDING,
 * BUT NOT LIMITED TO, PROCUREMENT OF SUBSTITUTE GOODS OR SERVICES; LOSS
 * OF USE, DATA, OR PROFITS; OR BUSINESS INTERRUPTION) HOWEVER CAUSED
 * AND ON ANY THEORY OF LIABILITY, WHETHER IN CONTRACT, STRICT
 * LIABILITY, OR TORT (INCLUDING NEGLIGENCE OR OTHERWISE) ARISING IN
 * ANY WAY OUT OF THE USE OF THIS SOFTWARE, EVEN IF ADVISED OF THE
 * POSSIBILITY OF SUCH DAMAGE.
 *
 ****************************************************************************/

#ifndef UTILITY_SELECTION_SORT_H_
#define UTILITY_SELECTION_SORT_H_

#include ""typedefs.h""

/**
 * @brief Sort elements using selection sort algorithm. Selection sort algorithm is an in-place
 * comparison sorting algorithm that has O(N^2) time complexity. It divides the input array into
 * two parts, sorted sub-array of items which is built up from left to right and unsorted items
 * that occupies the rest of the array. The sorted sub-array is empty and the unsorted sub-array
 * is the entire input array. The algorithm proceeds by finding the smallest element in the
 * unsorted sub-array, swapping it with the leftmost unsorted element (putting it in sorted order),
 * and moving the sub-array boundaries one element to the right.
 *
 * @param[in/out] *buffer Pointer to the buffer that contains elements that will be sorted.
 * @param[in] number_of_elements Number of elements in the buffer.
 * @param[in] element_size Size of the element, in bytes.
 * @param[in] *compareFun Pointer to compare function. Compare function has two parameters (pointer to
 *                        first element and pointer to second element). As a result, it returns boolean,
 *                        true if first element is greater than second element, otherwise false.
 */
void SelectionSort_sort(byte_t* buffer, int32_t number_of_elements, int32_t element_size,
                        bool (*compareFun)(void* first, void* second));

#endif /* UTILITY_SELECTION_SORT_H_ */
".

(** Inc/sort/heap_sort.h *)
Definition text_heap_sort_h : string :=
"/****************************************************************************
 *
 *   Copyright (c) 2022 IMProject Development Team. All rights reserved.
 *   Authors: Juraj Ciberlin <jciberlin1@gmail.com>
 *
 * Redistribution and use in source and binary forms, with or without
 * modification, are permitted provided that the following conditions
 * are met:
 *
 * 1. Redistributions of source code must retain the above copyright
 *    notice, this list of conditions and the following disclaimer.
 * 2. Redistributions in binary form must reproduce the above copyright
 *    notice, this list of conditions and the following disclaimer in
 *    the documentation and/or other materials provided with the
 *    distribution.
 * 3. Neither the name IMProject nor the names of its contributors may be
 *    used to endorse or promote products derived from this software
 *    without specific prior written permission.
 *
 * THIS SOFTWARE IS PROVIDED BY THE COPYRIGHT HOLDERS AND CONTRIBUTORS
 * ""AS IS"" AND ANY EXPRESS OR IMPLIED WARRANTIES, INCLUDING, BUT NOT
 * LIMITED TO, THE IMPLIED WARRANTIES OF MERCHANTABILITY AND FITNESS
 * FOR A PARTICULAR PURPOSE ARE DISCLAIMED. IN NO EVENT SHALL THE
 * COPYRIGHT OWNER OR CONTRIBUTORS BE LIABLE FOR ANY DIRECT, INDIRECT,
 * INCIDENTAL, SPECIAL, EXEMPLARY, OR CONSEQUENTIAL DAMAGES (INCLUDING,
 * BUT NOT LIMITED TO, PROCUREMENT OF SUBSTITUTE GOODS OR SERVICES; LOSS
 * OF USE, DATA, OR PROFITS; OR BUSINESS INTERRUPTION) HOWEVER CAUSED
 * AND ON ANY THEORY OF LIABILITY, WHETHER IN CONTRACT, STRICT
 * LIABILITY, OR TORT (INCLUDING NEGLIGENCE OR OTHERWISE) ARISING IN
 * ANY WAY OUT OF THE USE OF THIS SOFTWARE, EVEN IF ADVISED OF THE
 * POSSIBILITY OF SUCH DAMAGE.
 *
 ****************************************************************************/

#ifndef UTILITY_HEAP_SORT_H_
#define UTILITY_HEAP_SORT_H_

#include ""typedefs.h""

/**
 * @brief Sort elements using heap sort algorithm.
 *
 * @param[in/out] *buffer Pointer to the buffer that contains elements that will be sorted.
 * @param[in] number_of_elements Number of elements in the buffer.
 * @param[in] element_size Size of the element, in bytes.
 * @param[in] *compareFun Pointer to compare function. Compare function has two parameters (pointer to
 *                        first element and pointer to second element). As a result, it returns boolean,
 *                        true if first element is greater than second element, otherwise false.
 */
void HeapSort_sort(byte_t* buffer, int32_t number_of_elements, int32_t element_size,
                   bool (*compareFun)(void* first, void* second));

#endif /* UTILITY_HEAP_SORT_H_ */
".

(** Inc/crypto/caesar_cipher.h *)
Definition text_caesar_cipher_h : string :=
"/****************************************************************************
 *
 *   Copyright (c) 2024 IMProject Development Team. All rights reserved.
 *   Authors: Juraj Ciberlin <jciberlin1@gmail.com>
 *
 * Redistribution and use in source and binary forms, with or without
 * modification, are permitted provided that the following conditions
 * are met:
 *
 * 1. Redistributions of source code must retain the above copyright
 *    notice, this list of conditions and the following disclaimer.
 * 2. Redistributions in binary form must reproduce the above copyright
 *    notice, this list of conditions and the following disclaimer in
 *    the documentation and/or other materials provided with the
 *    distribution.
 * 3. Neither the name IMProject nor the names of its contributors may be
 *    used to endorse or promote products derived from this software
 *    without specific prior written permission.
 *
 * THIS SOFTWARE IS PROVIDED BY THE COPYRIGHT HOLDERS AND CONTRIBUTORS
 * ""AS IS"" AND ANY EXPRESS OR IMPLIED WARRANTIES, INCLUDING, BUT NOT
 * LIMITED TO, THE IMPLIED WARRANTIES OF MERCHANTABILITY AND FITNESS
 * FOR A PARTICULAR PURPOSE ARE DISCLAIMED. IN NO EVENT SHALL THE
 * COPYRIGHT OWNER OR CONTRIBUTORS BE LIABLE FOR ANY DIRECT, INDIRECT,
 * INCIDENTAL, SPECIAL, EXEMPLARY, OR CONSEQUENTIAL DAMAGES (INCLUDING,
 * BUT NOT LIMITED TO, PROCUREMENT OF SUBSTITUTE GOODS OR SERVICES; LOSS
 * OF USE, DATA, OR PROFITS; OR BUSINESS INTERRUPTION) HOWEVER CAUSED
 * AND ON ANY THEORY OF LIABILITY, WHETHER IN CONTRACT, STRICT
 * LIABILITY, OR TORT (INCLUDING NEGLIGENCE OR OTHERWISE) ARISING IN
 * ANY WAY OUT OF THE USE OF THIS SOFTWARE, EVEN IF ADVISED OF THE
 * POSSIBILITY OF SUCH DAMAGE.
 *
 ****************************************************************************/

#ifndef CAESAR_CIPHER_H_
#define CAESAR_CIPHER_H_

#include ""typedefs.h""

/**
 * @brief Encryption using Caesar cipher algorithm. Time complexity O(N).
 *
 * @param[in/out] *msg Pointer to message that will be encrypted.
 * @param[in] shift Shift value that will be used for encryption.
 */
void CaesarCipher_encrypt(char* msg, uint8_t shift);

/**
 * @brief Decryption using Caesar cipher algorithm. Time complexity O(N).
 *
 * @param[in/out] *msg Pointer to message that will be decrypted.
 * @param[in] shift Shift value that will be used for decryption.
 */
void CaesarCipher_decrypt(char* msg, uint8_t shift);

#endif /* CAESAR_CIPHER_H_ */
".

(** Inc/crypto/vernam_cipher.h *)
Definition text_vernam_cipher_h : string :=
"/****************************************************************************
 *
 *   Copyright (c) 2024 IMProject Development Team. All rights reserved.
 *   Authors: Juraj Ciberlin <jciberlin1@gmail.com>
 *
 * Redistribution and use in source and binary forms, with or without
 * modification, are permitted provided that the following conditions
 * are met:
 *
 * 1. Redistributions of source code must retain the above copyright
 *    notice, this list of conditions and the following disclaimer.
 * 2. Redistributions in binary form must reproduce the above copyright
 *    notice, this list of conditions and the following disclaimer in
 *    the documentation and/or other materials provided with the
 *    distribution.
 * 3. Neither the name IMProject nor the names of its contributors may be
 *    used to endorse or promote products derived from this software
 *    without specific prior written permission.
 *
 * THIS SOFTWARE IS PROVIDED BY THE COPYRIGHT HOLDERS AND CONTRIBUTORS
 * ""AS IS"" AND ANY EXPRESS OR IMPLIED WARRANTIES, INCLUDING, BUT NOT
 * LIMITED TO, THE IMPLIED WARRANTIES OF MERCHANTABILITY AND FITNESS
 * FOR A PARTICULAR PURPOSE ARE DISCLAIMED. IN NO EVENT SHALL THE
 * COPYRIGHT OWNER OR CONTRIBUTORS BE LIABLE FOR ANY DIRECT, INDIRECT,
 * INCIDENTAL, SPECIAL, EXEMPLARY, OR CONSEQUENTIAL DAMAGES (INCLUDING,
 * BUT NOT LIMITED TO, PROCUREMENT OF SUBSTITUTE GOODS OR SERVICES; LOSS
 * OF USE, DATA, OR PROFITS; OR BUSINESS INTERRUPTION) HOWEVER CAUSED
 * AND ON ANY THEORY OF LIABILITY, WHETHER IN CONTRACT, STRICT
 * LIABILITY, OR TORT (INCLUDING NEGLIGENCE OR OTHERWISE) ARISING IN
 * ANY WAY OUT OF THE USE OF THIS SOFTWARE, EVEN IF ADVISED OF THE
 * POSSIBILITY OF SUCH DAMAGE.
 *
 ****************************************************************************/

#ifndef VERNAM_CIPHER_H_
#define VERNAM_CIPHER_H_

#include ""typedefs.h""

/**
 * @brief Encryption using Vernam cipher/One Time Pad algorithm.
 *
 * @param[in/out] *msg Pointer to message that will be encrypted.
 * @param[in] *key Pointer to key string.
 * @param[in] key_length Key length.
 *
 * @return Status of encryption function. True if message size is higher than or equal to key length, otherwise false.
 */
bool VernamCipher_encrypt(char* msg, const char* key, int32_t key_length);

/**
 * @brief Decryption using Vernam cipher/One Time Pad algorithm.
 *
 * @param[in/out] *msg Pointer to message that will be decrypted.
 * @param[in] *key Pointer to key string.
 * @param[in] key_length Key length.
 *
 * @return Status of decryption function. True if message size is higher than or equal to key length, otherwise false.
 */
bool VernamCipher_decrypt(char* msg, const char* key, int32_t key_length);

#endif /* VERNAM_CIPHER_H_ */
".

(** Inc/crypto/chacha20.h *)
Definition text_chacha20_h : string :=
"/****************************************************************************
 *
 *   Copyright (c) 2024 IMProject Development Team. All rights reserved.
 *   Authors: Igor Misic <igy1000mb@gmail.com>
 *
 * Redistribution and use in source and binary forms, with or without
 * modification, are permitted provided that the following conditions
 * are met:
 *
 * 1. Redistributions of source code must retain the above copyright
 *    notice, this list of conditions and the following disclaimer.
 * 2. Redistributions in binary form must reproduce the above copyright
 *    notice, this list of conditions and the following disclaimer in
 *    the documentation and/or other materials provided with the
 *    distribution.
 * 3. Neither the name IMProject nor the names of its contributors may be
 *    used to endorse or promote products derived from this software
 *    without specific prior written permission.
 *
 * THIS SOFTWARE IS PROVIDED BY THE COPYRIGHT HOLDERS AND CONTRIBUTORS
 * ""AS IS"" AND ANY EXPRESS OR IMPLIED WARRANTIES, INCLUDING, BUT NOT
 * LIMITED TO, THE IMPLIED WARRANTIES OF MERCHANTABILITY AND FITNESS
 * FOR A PARTICULAR PURPOSE ARE DISCLAIMED. IN NO EVENT SHALL THE
 * COPYRIGHT OWNER OR CONTRIBUTORS BE LIABLE FOR ANY DIRECT, INDIRECT,
 * INCIDENTAL, SPECIAL, EXEMPLARY, OR CONSEQUENTIAL DAMAGES (INCLUDING,
 * BUT NOT LIMITED TO, PROCUREMENT OF SUBSTITUTE GOODS OR SERVICES; LOSS
 * OF USE, DATA, OR PROFITS; OR BUSINESS INTERRUPTION) HOWEVER CAUSED
 * AND ON ANY THEORY OF LIABILITY, WHETHER IN CONTRACT, STRICT
 * LIABILITY, OR TORT (INCLUDING NEGLIGENCE OR OTHERWISE) ARISING IN
 * ANY WAY OUT OF THE USE OF THIS SOFTWARE, EVEN IF ADVISED OF THE
 * POSSIBILITY OF SUCH DAMAGE.
 *
 ****************************************************************************/

#ifndef UTILITY_CHACHA20_H_
#define UTILITY_CHACHA20_H_

#include ""typedefs.h""

#define CHACHA20_KEY_SIZE           32U
#define CHACHA20_NONCE_SIZE         12U

/**
 * @brief Encrypts or decrypts a plaintext message using the ChaCha20 stream cipher.
 *
 * This function encrypts or decrypts a plaintext message using the ChaCha20 stream cipher algorithm.
 * ChaCha20 is a symmetric encryption algorithm that operates on 64-byte blocks, producing a stream of keystream bytes
 * which are XORed with the plaintext to produce the ciphertext, or vice versa.
 *
 * @param[in] plaintext Pointer to the plaintext message to be encrypted or decrypted.
 * @param[in] plaintext_len Length of the plaintext message in bytes.
 * @param[in] key Array containing the key for encryption/decryption. It must be of size CHACHA20_KEY_SIZE bytes.
 * @param[in] nonce Array containing the nonce value. It must be of size CHACHA20_NONCE_SIZE bytes.
 * @param[in] inc Initial block counter value (usually starts from 0 and incremented for each block).
 * @param[out] result Pointer to the buffer where the resulting encrypted or decrypted message will be stored.
 *                          The buffer must have enough space to hold the resulting ciphertext or plaintext, which is
 *                          the same size as the plaintext message.
 *
 * @note The length of the key must be CHACHA20_KEY_SIZE (32 bytes).
 * @note The length of the nonce must be CHACHA20_NONCE_SIZE (12 bytes).
 * @note The encrypted_message buffer must have enough space to accommodate the resulting ciphertext or plaintext,
 *       which will be the same size as the plaintext message.
 *
 * @warning This function does not perform any bounds checking on the input buffers. It is the responsibility of the
 *          caller to ensure that the buffers are valid and have the correct sizes.
 */

void Chacha20_crypt(const byte_t* plaintext,
                    uint32_t plaintext_len,
                    const byte_t key[CHACHA20_KEY_SIZE],
                    const byte_t nonce[CHACHA20_NONCE_SIZE],
                    uint32_t inc,
                    byte_t* result);

#endif /* UTILITY_CHACHA20_H_ */
".

(** Inc/crc/crc8_base.h *)
Definition text_crc8_base_h : string :=
"/****************************************************************************
 *
 *   Copyright (c) 2023 IMProject Development Team. All rights reserved.
 *   Authors: Igor Misic <igy1000mb@gmail.com>
 *
 * Redistribution and use in source and binary forms, with or without
 * modification, are permitted provided that the following conditions
 * are met:
 *
 * 1. Redistributions of source code must retain the above copyright
 *    notice, this list of conditions and the following disclaimer.
 * 2. Redistributions in binary form must reproduce the above copyright
 *    notice, this list of conditions and the following disclaimer in
 *    the documentation and/or other materials provided with the
 *    distribution.
 * 3. Neither the name IMProject nor the names of its contributors may be
 *    used to endorse or promote products derived from this software
 *    without specific prior written permission.
 *
 * THIS SOFTWARE IS PROVIDED BY THE COPYRIGHT HOLDERS AND CONTRIBUTORS
 * ""AS IS"" AND ANY EXPRESS OR IMPLIED WARRANTIES, INCLUDING, BUT NOT
 * LIMITED TO, THE IMPLIED WARRANTIES OF MERCHANTABILITY AND FITNESS
 * FOR A PARTICULAR PURPOSE ARE DISCLAIMED. IN NO EVENT SHALL THE
 * COPYRIGHT OWNER OR CONTRIBUTORS BE LIABLE FOR ANY DIRECT, INDIRECT,
 * INCIDENTAL, SPECIAL, EXEMPLARY, OR CONSEQUENTIAL DAMAGES (INCLUDING,
 * BUT NOT LIMITED TO, PROCUREMENT OF SUBSTITUTE GOODS OR SERVICES; LOSS
 * OF USE, DATA, OR PROFITS; OR BUSINESS INTERRUPTION) HOWEVER CAUSED
 * AND ON ANY THEORY OF LIABILITY, WHETHER IN CONTRACT, STRICT
 * LIABILITY, OR TORT (INCLUDING NEGLIGENCE OR OTHERWISE) ARISING IN
 * ANY WAY OUT OF THE USE OF THIS SOFTWARE, EVEN IF ADVISED OF THE
 * POSSIBILITY OF SUCH DAMAGE.
 *
 ****************************************************************************/

#ifndef UTILITY_CRC8_BASE_H_
#define UTILITY_CRC8_BASE_H_

#include ""typedefs.h""

/**
 * @brief Calculates a lookup table for a given 8-bit polynomial.
 *
 * This function generates a lookup table for use in calculating an 8-bit CRC
 * checksum with the specified polynomial. The resulting table is stored in the
 * 'crc_table' array, which must be a pre-allocated array of 256 bytes.
 *
 * @param[in] polynomial The 8-bit polynomial to use for the CRC calculation.
 * @param[out] crc_table A pointer to the pre-allocated array that will hold the
 *                  resulting lookup table.
 */
void Crc8Base_tableCalculator(uint8_t polynomial, uint8_t crc_table[256]);

/**
 * @brief Calculates an 8-bit CRC checksum for a block of data.
 *
 * This function calculates an 8-bit CRC checksum for the given block of data
 * using the specified parameters. The 'crc_table' parameter should be a lookup
 * table generated using the 'CRC8Base_TableCalculator' function. The 'crc_data_ptr'
 * parameter should be a pointer to the block of data to calculate the checksum for.
 * The 'crc_length' parameter is the length of the data block in bytes. The 'crc_initial_value'
 * parameter is the initial value of the checksum calculation. The 'xor_value' parameter
 * is a value that is XORed with the final checksum result. The 'reflected_output' parameter
 * specifies whether the final checksum value should be bit-reflected. The 'reflected_input'
 * parameter specifies whether the input data should be bit-reflected before the checksum calculation.
 * The 'final_xor' parameter specifies whether the final checksum value should be XORed with 'xor_value'.
 *
 * @param[in] crc_table The lookup table to use for the CRC calculation.
 * @param[in] crc_data_ptr A pointer to the data block to calculate the checksum for.
 * @param[in] crc_length The length of the data block in bytes.
 * @param[in] crc_initial_value The initial value of the checksum calculation.
 * @param[in] xor_value The value to XOR with the final checksum result.
 * @param[in] reflected_output Whether the final checksum value should be bit-reflected.
 * @param[in] reflected_input Whether the input data should be bit-reflected before the checksum calculation.
 * @param[in] final_xor Whether the final checksum value should be XORed with 'xor_value'.
 *
 * @return The calculated CRC checksum.
 */
uint8_t Crc8Base(
    const uint8_t crc_table[256],
    const uint8_t* crc_data_ptr,
    uint32_t crc_length,
    uint8_t crc_initial_value,
    uint8_t final_xor_value,
    bool reflected_output,
    bool reflected_input,
    bool final_xor
);

#endif /* UTILITY_CRC8_BASE_H_ */
".

(** Inc/crc/crc16_base.h *)
Definition text_crc16_base_h : string :=
"/****************************************************************************
 *
 *   Copyright (c) 2023 IMProject Development Team. All rights reserved.
 *   Authors: Igor Misic <igy1000mb@gmail.com>
 *
 * Redistribution and use in source and binary forms, with or without
 * modification, are permitted provided that the following conditions
 * are met:
 *
 * 1. Redistributions of source code must retain the above copyright
 *    notice, this list of conditions and the following disclaimer.
 * 2. Redistributions in binary form must reproduce the above copyright
 *    notice, this list of conditions and the following disclaimer in
 *    the documentation and/or other materials provided with the
 *    distribution.
 * 3. Neither the name IMProject nor the names of its contributors may be
 *    used to endorse or promote products derived from this software
 *    without specific prior written permission.
 *
 * THIS SOFTWARE IS PROVIDED BY THE COPYRIGHT HOLDERS AND CONTRIBUTORS
 * ""AS IS"" AND ANY EXPRESS OR IMPLIED WARRANTIES, INCLUDING, BUT NOT
 * LIMITED TO, THE IMPLIED WARRANTIES OF MERCHANTABILITY AND FITNESS
 * FOR A PARTICULAR PURPOSE ARE DISCLAIMED. IN NO EVENT SHALL THE
 * COPYRIGHT OWNER OR CONTRIBUTORS BE LIABLE FOR ANY DIRECT, INDIRECT,
 * INCIDENTAL, SPECIAL, EXEMPLARY, OR CONSEQUENTIAL DAMAGES (INCLUDING,
 * BUT NOT LIMITED TO, PROCUREMENT OF SUBSTITUTE GOODS OR SERVICES; LOSS
 * OF USE, DATA, OR PROFITS; OR BUSINESS INTERRUPTION) HOWEVER CAUSED
 * AND ON ANY THEORY OF LIABILITY, WHETHER IN CONTRACT, STRICT
 * LIABILITY, OR TORT (INCLUDING NEGLIGENCE OR OTHERWISE) ARISING IN
 * ANY WAY OUT OF THE USE OF THIS SOFTWARE, EVEN IF ADVISED OF THE
 * POSSIBILITY OF SUCH DAMAGE.
 *
 ****************************************************************************/

#ifndef UTILITY_CRC16_BASE_H_
#define UTILITY_CRC16_BASE_H_

#include ""typedefs.h""

/**
 * @brief Calculates a lookup table for a given 16-bit polynomial.
 *
 * This function generates a lookup table for use in calculating an 16-bit CRC
 * checksum with the specified polynomial. The resulting table is stored in the
 * 'crc_table' array, which must be a pre-allocated array of 256 bytes.
 *
 * @param[in] polynomial The 16-bit polynomial to use for the CRC calculation.
 * @param[out] crc_table A pointer to the pre-allocated array that will hold the
 *                  resulting lookup table.
 */
void Crc16Base_tableCalculator(uint16_t polynomial, uint16_t crc_table[256]);

/**
 * @brief Calculates an 16-bit CRC checksum for a block of data.
 *
 * This function calculates an 16-bit CRC checksum for the given block of data
 * using the specified parameters. The 'crc_table' parameter should be a lookup
 * table generated using the 'CRC16Base_TableCalculator' function. The 'crc_data_ptr'
 * parameter should be a pointer to the block of data to calculate the checksum for.
 * The 'crc_length' parameter is the length of the data block in bytes. The 'crc_initial_value'
 * parameter is the initial value of the checksum calculation. The 'xor_value' parameter
 * is a value that is XORed with the final checksum result. The 'reflected_output' parameter
 * specifies whether the final checksum value should be bit-reflected. The 'reflected_input'
 * parameter specifies whether the input data should be bit-reflected before the checksum calculation.
 * The 'final_xor' parameter specifies whether the final checksum value should be XORed with 'xor_value'.
 *
 * @param[in] crc_table The lookup table to use for the CRC calculation.
 * @param[in] crc_data_ptr A pointer to the data block to calculate the checksum for.
 * @param[in] crc_length The length of the data block in bytes.
 * @param[in] crc_initial_value The initial value of the checksum calculation.
 * @param[in] xor_value The value to XOR with the final checksum result.
 * @param[in] reflected_output Whether the final checksum value should be bit-reflected.
 * @param[in] reflected_input Whether the input data should be bit-reflected before the checksum calculation.
 * @param[in] final_xor Whether the final checksum value should be XORed with 'xor_value'.
 *
 * @return The calculated CRC checksum.
 */
uint16_t Crc16Base(
    const uint16_t crc_table[256],
    const uint8_t* crc_data_ptr,
    uint32_t crc_length,
    uint16_t crc_initial_value,
    uint16_t final_xor_value,
    bool reflected_output,
    bool reflected_input,
    bool final_xor
);

#endif /* UTILITY_CRC16_BASE_H_ */
".

(** Inc/crc/crc32_base.h *)
Definition text_crc32_base_h : string :=
"/****************************************************************************
 *
 *   Copyright (c) 2021 - 2023 IMProject Development Team. All rights reserved.
 *   Authors: Igor Misic <igy1000mb@gmail.com>
 *
 * Redistribution and use in source and binary forms, with or without
 * modification, are permitted provided that the following conditions
 * are met:
 *
 * 1. Redistributions of source code must retain the above copyright
 *    notice, this list of conditions and the following disclaimer.
 * 2. Redistributions in binary form must reproduce the above copyright
 *    notice, this list of conditions and the following disclaimer in
 *    the documentation and/or other materials provided with the
 *    distribution.
 * 3. Neither the name IMProject nor the names of its contributors may be
 *    used to endorse or promote products derived from this software
 *    without specific prior written permission.
 *
 * THIS SOFTWARE IS PROVIDED BY THE COPYRIGHT HOLDERS AND CONTRIBUTORS
 * ""AS IS"" AND ANY EXPRESS OR IMPLIED WARRANTIES, INCLUDING, BUT NOT
 * LIMITED TO, THE IMPLIED WARRANTIES OF MERCHANTABILITY AND FITNESS
 * FOR A PARTICULAR PURPOSE ARE DISCLAIMED. IN NO EVENT SHALL THE
 * COPYRIGHT OWNER OR CONTRIBUTORS BE LIABLE FOR ANY DIRECT, INDIRECT,
 * INCIDENTAL, SPECIAL, EXEMPLARY, OR CONSEQUENTIAL DAMAGES (INCLUDING,
 * BUT NOT LIMITED TO, PROCUREMENT OF SUBSTITUTE GOODS OR SERVICES; LOSS
 * OF USE, DATA, OR PROFITS; OR BUSINESS INTERRUPTION) HOWEVER CAUSED
 * AND ON ANY THEORY OF LIABILITY, WHETHER IN CONTRACT, STRICT
 * LIABILITY, OR TORT (INCLUDING NEGLIGENCE OR OTHERWISE) ARISING IN
 * ANY WAY OUT OF THE USE OF THIS SOFTWARE, EVEN IF ADVISED OF THE
 * POSSIBILITY OF SUCH DAMAGE.
 *
 ****************************************************************************/

#ifndef UTILITY_CRC32_BASE_H_
#define UTILITY_CRC32_BASE_H_

#include ""typedefs.h""

/**
 * @brief Calculates a lookup table for a given 32-bit polynomial.
 *
 * This function generates a lookup table for use in calculating an 32-bit CRC
 * checksum with the specified polynomial. The resulting table is stored in the
 * 'crc_table' array, which must be a pre-allocated array of 256 bytes.
 *
 * @param[in] polynomial The 8-bit polynomial to use for the CRC calculation.
 * @param[out] crc_table A pointer to the pre-allocated array that will hold the
 *                  resulting lookup table.
 */
void Crc32Base_tableCalculator(uint32_t polynomial, uint32_t crc_table[256]);

/**
 * @brief Calculates an 32-bit CRC checksum for a block of data.
 *
 * This function calculates an 32-bit CRC checksum for the given block of data
 * using the specified parameters. The 'crc_table' parameter should be a lookup
 * table generated using the 'CRC32Base_TableCalculator' function. The 'crc_data_ptr'
 * parameter should be a pointer to the block of data to calculate the checksum for.
 * The 'crc_length' parameter is the length of the data block in bytes. The 'crc_initial_value'
 * parameter is the initial value of the checksum calculation. The 'xor_value' parameter
 * is a value that is XORed with the final checksum result. The 'reflected_output' parameter
 * specifies whether the final checksum value should be bit-reflected. The 'reflected_input'
 * parameter specifies whether the input data should be bit-reflected before the checksum calculation.
 * The 'final_xor' parameter specifies whether the final checksum value should be XORed with 'xor_value'.
 *
 * @param[in] crc_table The lookup table to use for the CRC calculation.
 * @param[in] crc_data_ptr A pointer to the data block to calculate the checksum for.
 * @param[in] crc_length The length of the data block in bytes.
 * @param[in] crc_initial_value The initial value of the checksum calculation.
 * @param[in] xor_value The value to XOR with the final checksum result.
 * @param[in] reflected_output Whether the final checksum value should be bit-reflected.
 * @param[in] reflected_input Whether the input data should be bit-reflected before the checksum calculation.
 * @param[in] final_xor Whether the final checksum value should be XORed with 'xor_value'.
 *
 * @return The calculated CRC checksum.
 */
uint32_t Crc32Base(
    const uint32_t crc_table[256],
    const uint8_t* crc_data_ptr,
    uint32_t crc_length,
    uint32_t crc_initial_value,
    uint32_t final_xor_value,
    bool reflected_output,
    bool reflected_input,
    bool final_xor
);

#endif /* UTILITY_CRC32_BASE_H_ */
".

(** the files by name *)
Definition text_headers : list (string * string) :=
  (("typedefs.h", text_typedefs_h)
   :: ("misra_c_2012_doc.h", text_misra_c_2012_doc_h)
   :: ("utils.h", text_utils_h)
   :: ("bit_manipulation.h", text_bit_manipulation_h)
   :: ("base64.h", text_base64_h)
   :: ("queue.h", text_queue_h)
   :: ("priority_queue.h", text_priority_queue_h)
   :: ("map.h", text_map_h)
   :: ("scheduler.h", text_scheduler_h)
   :: ("json.h", text_json_h)
   :: ("bubble_sort.h", text_bubble_sort_h)
   :: ("insertion_sort.h", text_insertion_sort_h)
   :: ("selection_sort.h", text_selection_sort_h)
   :: ("heap_sort.h", text_heap_sort_h)
   :: ("caesar_cipher.h", text_caesar_cipher_h)
   :: ("vernam_cipher.h", text_vernam_cipher_h)
   :: ("chacha20.h", text_chacha20_h)
   :: ("crc8_base.h", text_crc8_base_h)
   :: ("crc16_base.h", text_crc16_base_h)
   :: ("crc32_base.h", text_crc32_base_h)
   :: nil)%list.
