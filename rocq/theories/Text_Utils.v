(** * The text of files in [/repo/Src]

    Copied by [/verif/tools/embed.py], which changes nothing but writes each double quote twice
    (that is how Coq writes one inside a string); [embed.py --check] compares. *)
From Coq Require Import String.
Local Open Scope string_scope.

(** Src/utils.c *)
Definition text_utils_c : string :=
"/****************************************************************************
 *
 *   Copyright (c) 2021 - 2023 IMProject Development Team. All rights reserved.
 *   Authors: Igor Misic <igy1000mb@gmail.com>
 *
 * Redistribution and use in source and binary forms, with or without
 * modification, are permitted provided that the following conditions
 * are met:
 *
 * 1. Redistributions of source code must retain the above copyright
 *    notice, this list of conditions and the following disclaimer.
 * 2. Redistributions in binary form must reproduce the above copyright
 *    notice, this list of conditions and the following disclaimer in
 *    the documentation and/or other materials provided with the
 *    distribution.
 * 3. Neither the name IMProject nor the names of its contributors may be
 *    used to endorse or promote products derived from this software
 *    without specific prior written permission.
 *
 * THIS SOFTWARE IS PROVIDED BY THE COPYRIGHT HOLDERS AND CONTRIBUTORS
 * ""AS IS"" AND ANY EXPRESS OR IMPLIED WARRANTIES, INCLUDING, BUT NOT
 * LIMITED TO, THE IMPLIED WARRANTIES OF MERCHANTABILITY AND FITNESS
 * FOR A PARTICULAR PURPOSE ARE DISCLAIMED. IN NO EVENT SHALL THE
 * COPYRIGHT OWNER OR CONTRIBUTORS BE LIABLE FOR ANY DIRECT, INDIRECT,
 * INCIDENTAL, SPECIAL, EXEMPLARY, OR CONSEQUENTIAL DAMAGES (INCLUDING,
 * BUT NOT LIMITED TO, PROCUREMENT OF SUBSTITUTE GOODS OR SERVICES; LOSS
 * OF USE, DATA, OR PROFITS; OR BUSINESS INTERRUPTION) HOWEVER CAUSED
 * AND ON ANY THEORY OF LIABILITY, WHETHER IN CONTRACT, STRICT
 * LIABILITY, OR TORT (INCLUDING NEGLIGENCE OR OTHERWISE) ARISING IN
 * ANY WAY OUT OF THE USE OF THIS SOFTWARE, EVEN IF ADVISED OF THE
 * POSSIBILITY OF SUCH DAMAGE.
 *
 ****************************************************************************/

#include ""utils.h""

#define MAX_UINT32_POW_10_EXPONENT 10U
#define UPPER_A_ASCII   (65U)
#define UPPER_Z_ASCII   (90U)
#define LOWER_A_ASCII   (97U)
#define LOWER_Z_ASCII   (122U)

bool
Utils_stringToUint32(const char* str, uint8_t str_length, uint32_t* integer) {
    bool success = true;
    bool check_overflow = false;
    uint8_t i = 0U;
    *integer = 0U;
    uint8_t length = str_length;

    if (str_length == MAX_UINT32_POW_10_EXPONENT) {
        check_overflow = true;
        length = str_length - 1U;
    }

    while ((length > i) && success) {

        if ((str[i] >= '0') && (str[i] <= '9')) {

            const int8_t digit = (int8_t)((int8_t)str[i] - (int8_t)'0');
            const uint8_t unsigned_power = length - (i + 1U);
            uint32_t result = 0U;
            success = Utils_quickUint32Pow10(unsigned_power, &result);
            *integer += (uint32_t)digit * result;
            ++i;

        } else {
            success = false;
        }
    }

    if (check_overflow && success) {

        const uint8_t last_digit_index = MAX_UINT32_POW_10_EXPONENT - 1U;

        if ((str[last_digit_index] >= '0') && (str[last_digit_index] <= '9')) {

            const int8_t digit = (int8_t)((int8_t)str[last_digit_index] - (int8_t)'0');

            if ((*integer > (UINT32_MAX / 10U)) || ((*integer == (UINT32_MAX / 10U)) && ((uint32_t)digit > (UINT32_MAX % 10U)))) {
                //Overflow detected
                success = false;
            } else {
                *integer *= 10U;
                *integer += (uint32_t)digit;
            }
        } else {
            success = false;
        }
    }

    return success;
}

void
Utils_swapElements(byte_t* first, byte_t* second, uint32_t size) {
    byte_t* first_element = first;
    byte_t* second_element = second;
    uint32_t index = size;
    while ((index--) != 0U) {
        byte_t temp = first_element[index];
        first_element[index] = second_element[index];
        second_element[index] = temp;
    }
}

bool
Utils_quickUint32Pow10(uint8_t exponent, uint32_t* result) {
    bool success = false;

    const uint32_t pow10[MAX_UINT32_POW_10_EXPONENT] = {
        1U, 10U, 100U, 1000U, 10000U,
        100000U, 1000000U, 10000000U, 100000000U, 1000000000U
    };

    if (exponent < MAX_UINT32_POW_10_EXPONENT) {
        *result = pow10[exponent];
        success = true;
    }

    return success;
}

void
Utils_serialize8(byte_t* buf, uint8_t value) {
    buf[0] = (uint8_t)(value) & 0xFFu;
}

uint8_t
Utils_deserialize8(const byte_t* buf) {
    uint8_t value = buf[0];
    return value;
}

void
Utils_serialize16BE(byte_t* buf, uint16_t value) {
    buf[0] = (uint8_t)(value >> 8u) & 0xFFu;
    buf[1] = (uint8_t)(value) & 0xFFu;
}

void
Utils_serialize24BE(byte_t* buf, uint32_t value) {
    buf[0] = (uint8_t)(value >> 16u) & 0xFFu;
    buf[1] = (uint8_t)(value >> 8u) & 0xFFu;
    buf[2] = (uint8_t)(value) & 0xFFu;
}

void
Utils_serialize32BE(byte_t* buf, uint32_t value) {
    buf[0] = (uint8_t)(value >> 24u) & 0xFFu;
    buf[1] = (uint8_t)(value >> 16u) & 0xFFu;
    buf[2] = (uint8_t)(value >> 8u) & 0xFFu;
    buf[3] = (uint8_t)(value) & 0xFFu;
}

void
Utils_serializeBlobBE(byte_t* buf, const byte_t* src, uint32_t size) {
    for (uint32_t i = 0; i < size; i++) {
        buf[i] = src[i];
    }
}

uint16_t
Utils_deserialize16BE(const byte_t* buf) {
    uint16_t value;
    value = (uint16_t)buf[0] << 8U;
    value |= (uint16_t)buf[1];
    return value;
}

uint32_t
Utils_deserialize24BE(const byte_t* buf) {
    uint32_t value;
    value = (uint32_t)buf[0] << 16u;
    value |= (uint32_t)buf[1] << 8u;
    value |= (uint32_t)buf[2];
    return value;
}

uint32_t
Utils_deserialize32BE(const byte_t* buf) {
    uint32_t value;
    value = (uint32_t)buf[0] << 24u;
    value |= (uint32_t)buf[1] << 16u;
    value |= (uint32_t)buf[2] << 8u;
    value |= (uint32_t)buf[3];
    return value;
}

void
Utils_deserializeBlobBE(const byte_t* buf, byte_t* dst, uint32_t size) {
    for (uint32_t i = 0; i < size; i++) {
        dst[i] = buf[i];
    }
}

void
Utils_serialize16LE(byte_t* buf, uint16_t value) {
    buf[1] = (uint8_t)(value >> 8u) & 0xFFu;
    buf[0] = (uint8_t)(value) & 0xFFu;
}

void
Utils_serialize24LE(byte_t* buf, uint32_t value) {
    buf[2] = (uint8_t)(value >> 16u) & 0xFFu;
    buf[1] = (uint8_t)(value >> 8u) & 0xFFu;
    buf[0] = (uint8_t)(value) & 0xFFu;
}

void
Utils_serialize32LE(byte_t* buf, uint32_t value) {
    buf[3] = (uint8_t)(value >> 24u) & 0xFFu;
    buf[2] = (uint8_t)(value >> 16u) & 0xFFu;
    buf[1] = (uint8_t)(value >> 8u) & 0xFFu;
    buf[0] = (uint8_t)(value) & 0xFFu;
}

void
Utils_serializeBlobLE(byte_t* buf, const byte_t* src, uint32_t size) {
    int32_t j = 0;
    for (int32_t i = ((int32_t)size - 1); i >= 0; --i) {
        buf[j] = src[i];
        ++j;
    }
}

uint16_t
Utils_deserialize16LE(const byte_t* buf) {
    uint16_t value;
    value = (uint16_t)buf[1] << 8U;
    value |= (uint16_t)buf[0];
    return value;
}

uint32_t
Utils_deserialize24LE(const byte_t* buf) {
    uint32_t value;
    value = (uint32_t)buf[2] << 16u;
    value |= (uint32_t)buf[1] << 8u;
    value |= (uint32_t)buf[0];
    return value;
}

uint32_t
Utils_deserialize32LE(const byte_t* buf) {
    uint32_t value;
    value = (uint32_t)buf[3] << 24u;
    value |= (uint32_t)buf[2] << 16u;
    value |= (uint32_t)buf[1] << 8u;
    value |= (uint32_t)buf[0];
    return value;
}

void
Utils_deserializeBlobLE(const byte_t* buf, byte_t* dst, uint32_t size) {
    int32_t  j = 0;
    for (int32_t i = ((int32_t)size - 1); i >= 0; --i) {
        dst[j] = buf[i];
        ++j;
    }
}

bool
Utils_isUpperChar(char input) {
    bool result = false;
    uint8_t c = (uint8_t)input;
    if ((c >= UPPER_A_ASCII) && (c <= UPPER_Z_ASCII)) {
        result = true;
    }
    return result;
}

bool
Utils_isLowerChar(char input) {
    bool result = false;
    uint8_t c = (uint8_t)input;
    if ((c >= LOWER_A_ASCII) && (c <= LOWER_Z_ASCII)) {
        result = true;
    }
    return result;
}

bool
Utils_isAlpha(char input) {
    bool is_upper = Utils_isUpperChar(input);
    bool is_lower = Utils_isLowerChar(input);

    return (is_upper || is_lower);
}
".

(** Src/bit_manipulation.c *)
Definition text_bit_manipulation_c : string :=
"/****************************************************************************
 *
 *   Copyright (c) 2023 - 2024 IMProject Development Team. All rights reserved.
 *   Authors: Juraj Ciberlin <jciberlin1@gmail.com>
 *
 * Redistribution and use in source and binary forms, with or without
 * modification, are permitted provided that the following conditions
 * are met:
 *
 * 1. Redistributions of source code must retain the above copyright
 *    notice, this list of conditions and the following disclaimer.
 * 2. Redistributions in binary form must reproduce the above copyright
 *    notice, this list of conditions and the following disclaimer in
 *    the documentation and/or other materials provided with the
 *    distribution.
 * 3. Neither the name IMProject nor the names of its contributors may be
 *    used to endorse or promote products derived from this software
 *    without specific prior written permission.
 *
 * THIS SOFTWARE IS PROVIDED BY THE COPYRIGHT HOLDERS AND CONTRIBUTORS
 * ""AS IS"" AND ANY EXPRESS OR IMPLIED WARRANTIES, INCLUDING, BUT NOT
 * LIMITED TO, THE IMPLIED WARRANTIES OF MERCHANTABILITY AND FITNESS
 * FOR A PARTICULAR PURPOSE ARE DISCLAIMED. IN NO EVENT SHALL THE
 * COPYRIGHT OWNER OR CONTRIBUTORS BE LIABLE FOR ANY DIRECT, INDIRECT,
 * INCIDENTAL, SPECIAL, EXEMPLARY, OR CONSEQUENTIAL DAMAGES (INCLUDING,
 * BUT NOT LIMITED TO, PROCUREMENT OF SUBSTITUTE GOODS OR SERVICES; LOSS
 * OF USE, DATA, OR PROFITS; OR BUSINESS INTERRUPTION) HOWEVER CAUSED
 * AND ON ANY THEORY OF LIABILITY, WHETHER IN CONTRACT, STRICT
 * LIABILITY, OR TORT (INCLUDING NEGLIGENCE OR OTHERWISE) ARISING IN
 * ANY WAY OUT OF THE USE OF THIS SOFTWARE, EVEN IF ADVISED OF THE
 * POSSIBILITY OF SUCH DAMAGE.
 *
 ****************************************************************************/

#include ""bit_manipulation.h""

#define MAX_BIT_SHIFT (31U)

uint32_t
BitManipulation_reflect(uint32_t data, uint8_t n_bits) {
    uint32_t reflection = 0u;
    uint32_t temp_data = data;

    /*
    * Reflect the data around the center bit.
    */
    for (uint8_t bit = 0u; bit < n_bits; ++bit) {
        /*
        * If the LSB bit is set, set the reflection of it.
        */
        if (1u == (temp_data & 1u) ) {
            /* -E> compliant MC3R1.R12.2 1 The shift count is granted to be between 0 and 31 due to bit masking. */
            reflection |= (uint32_t)((uint32_t)1U << (0x1FU & ((n_bits - 1U) - bit)));
        }

        temp_data = (temp_data >> 1u);
    }

    return reflection;
}

bool
BitManipulation_bitSet(uint32_t data, uint8_t n, bool* bit_set) {
    bool status = false;
    if (n <= MAX_BIT_SHIFT) {
        /* -E> compliant MC3R1.R12.2 1 Right hand operand of shift expression is between 0 and 31 due to previous IF statement. */
        uint32_t temp = (uint32_t)1U << n;
        *bit_set = ((data & temp) != 0U);
        status = true;
    }
    return status;
}

bool
BitManipulation_setBit(uint32_t data, uint8_t n, uint32_t* out) {
    bool status = false;
    if (n <= MAX_BIT_SHIFT) {
        /* -E> compliant MC3R1.R12.2 1 Right hand operand of shift expression is between 0 and 31 due to previous IF statement. */
        *out = (data | ((uint32_t)1U << n));
        status = true;
    }
    return status;
}

bool
BitManipulation_clearBit(uint32_t data, uint8_t n, uint32_t* out) {
    bool status = false;
    if (n <= MAX_BIT_SHIFT) {
        /* -E> compliant MC3R1.R12.2 1 Right hand operand of shift expression is between 0 and 31 due to previous IF statement. */
        *out = (data & (~((uint32_t)1U << n)));
        status = true;
    }
    return status;
}

bool
BitManipulation_toggleBit(uint32_t data, uint8_t n, uint32_t* out) {
    bool status = false;
    if (n <= MAX_BIT_SHIFT) {
        /* -E> compliant MC3R1.R12.2 1 Right hand operand of shift expression is between 0 and 31 due to previous IF statement. */
        *out = (data ^ ((uint32_t)1U << n));
        status = true;
    }
    return status;
}

uint32_t
BitManipulation_rotl32(uint32_t data, uint32_t n_bits) {

    /* -E> hide MC3R1.R12.2 1 To optimize efficiency, we do not verify whether n_bits is between 0 and 31. */
    return ((data << n_bits) ^ (data >> (32U - n_bits)));
}
".

(** Src/base64.c *)
Definition text_base64_c : string :=
"/*
 * Base64 Decode
 * Polfosol
 *
 * Base64 encoding/decoding (RFC1341)
 * Copyright (c) 2005-2011, Jouni Malinen <j@w1.fi>
 *
 * This software may be distributed under the terms of the BSD license.
 * See README for more details.
 *
 */

// Source code from Polfosol: https://stackoverflow.com/questions/180947/base64-decode-snippet-in-c/13935718
// Source code from Jouni Malinen: https://web.mit.edu/freebsd/head/contrib/wpa/src/utils/base64.c


// Encode/Decode functions are modified by Juraj Ciberlin (jciberlin1@gmail.com) to be MISRA C 2012 compliant

#include ""base64.h""

int32_t
Base64_encode(const char* data, size_t data_length, char* result, size_t max_result_length) {
    int32_t success = 0;
    const uint8_t base64_table[65] = {
        (uint8_t)'A', (uint8_t)'B', (uint8_t)'C', (uint8_t)'D',
        (uint8_t)'E', (uint8_t)'F', (uint8_t)'G', (uint8_t)'H',
        (uint8_t)'I', (uint8_t)'J', (uint8_t)'K', (uint8_t)'L',
        (uint8_t)'M', (uint8_t)'N', (uint8_t)'O', (uint8_t)'P',
        (uint8_t)'Q', (uint8_t)'R', (uint8_t)'S', (uint8_t)'T',
        (uint8_t)'U', (uint8_t)'V', (uint8_t)'W', (uint8_t)'X',
        (uint8_t)'Y', (uint8_t)'Z', (uint8_t)'a', (uint8_t)'b',
        (uint8_t)'c', (uint8_t)'d', (uint8_t)'e', (uint8_t)'f',
        (uint8_t)'g', (uint8_t)'h', (uint8_t)'i', (uint8_t)'j',
        (uint8_t)'k', (uint8_t)'l', (uint8_t)'m', (uint8_t)'n',
        (uint8_t)'o', (uint8_t)'p', (uint8_t)'q', (uint8_t)'r',
        (uint8_t)'s', (uint8_t)'t', (uint8_t)'u', (uint8_t)'v',
        (uint8_t)'w', (uint8_t)'x', (uint8_t)'y', (uint8_t)'z',
        (uint8_t)'0', (uint8_t)'1', (uint8_t)'2', (uint8_t)'3',
        (uint8_t)'4', (uint8_t)'5', (uint8_t)'6', (uint8_t)'7',
        (uint8_t)'8', (uint8_t)'9', (uint8_t)'+', (uint8_t)'/',
        (uint8_t)'\0'
    };
    uint8_t* out;
    const uint8_t* in = (const uint8_t*) data;

    size_t len = 4U * ((data_length + 2U) / 3U);

    if (len < data_length) {
        success = 1;
    }

    if (success == 0) {
        size_t current_length = 0U;
        size_t in_position = 0U;
        out = (uint8_t*)&result[0];
        uint8_t* pos = out;
        while ((data_length - in_position) >= 3U) {
            current_length += 4U;
            if (current_length > max_result_length) {
                success = 1;
                break;
            }
            *pos = base64_table[in[0] >> 2];
            ++pos;
            *pos = base64_table[((in[0] & 0x03U) << 4) | (in[1] >> 4)];
            ++pos;
            *pos = base64_table[((in[1] & 0x0FU) << 2) | (in[2] >> 6)];
            ++pos;
            *pos = base64_table[in[2] & 0x3FU];
            ++pos;
            ++in;
            ++in;
            ++in;
            in_position += 3U;
        }

        if ((success == 0) && ((data_length - in_position) != 0U)) {
            current_length += 4U;
            if (current_length > max_result_length) {
                success = 1;
            }

            if (success == 0) {
                *pos = base64_table[in[0] >> 2];
                ++pos;
                if ((data_length - in_position) == 1U) {
                    *pos = base64_table[(in[0] & 0x03U) << 4];
                    ++pos;
                    *pos = (uint8_t)'=';
                    ++pos;
                } else {
                    *pos = base64_table[((in[0] & 0x03U) << 4) | (in[1] >> 4)];
                    ++pos;
                    *pos = base64_table[(in[1] & 0x0FU) << 2];
                    ++pos;
                }
                *pos = (uint8_t)'=';
                ++pos;
            }
        }

        *pos = (uint8_t)'\0';
    }

    return success;
}

int32_t
Base64_decode(const char* in, size_t in_len, uint8_t* out, size_t max_out_len) {
    int32_t success = 0;
    const uint32_t base64_index[256] = {
        0U, 0U, 0U, 0U, 0U, 0U, 0U, 0U, 0U, 0U, 0U, 0U, 0U, 0U, 0U, 0U, 0U, 0U, 0U, 0U,
        0U, 0U, 0U, 0U, 0U, 0U, 0U, 0U, 0U, 0U, 0U, 0U, 0U, 0U, 0U, 0U, 0U, 0U, 0U, 0U,
        0U, 0U, 0U, 62U, 63U, 62U, 62U, 63U, 52U, 53U, 54U, 55U, 56U, 57U, 58U, 59U, 60U,
        61U, 0U, 0U, 0U, 0U, 0U, 0U, 0U, 0U, 1U, 2U, 3U, 4U, 5U, 6U, 7U, 8U, 9U, 10U, 11U,
        12U, 13U, 14U, 15U, 16U, 17U, 18U, 19U, 20U, 21U, 22U, 23U, 24U, 25U, 0U, 0U, 0U,
        0U, 63U, 0U, 26U, 27U, 28U, 29U, 30U, 31U, 32U, 33U, 34U, 35U, 36U, 37U, 38U, 39U,
        40U, 41U, 42U, 43U, 44U, 45U, 46U, 47U, 48U, 49U, 50U, 51U, 0U, 0U, 0U, 0U, 0U, 0U,
        0U, 0U, 0U, 0U, 0U, 0U, 0U, 0U, 0U, 0U, 0U, 0U, 0U, 0U, 0U, 0U, 0U, 0U, 0U, 0U, 0U,
        0U, 0U, 0U, 0U, 0U, 0U, 0U, 0U, 0U, 0U, 0U, 0U, 0U, 0U, 0U, 0U, 0U, 0U, 0U, 0U, 0U,
        0U, 0U, 0U, 0U, 0U, 0U, 0U, 0U, 0U, 0U, 0U, 0U, 0U, 0U, 0U, 0U, 0U, 0U, 0U, 0U, 0U,
        0U, 0U, 0U, 0U, 0U, 0U, 0U, 0U, 0U, 0U, 0U, 0U, 0U, 0U, 0U, 0U, 0U, 0U, 0U, 0U, 0U,
        0U, 0U, 0U, 0U, 0U, 0U, 0U, 0U, 0U, 0U, 0U, 0U, 0U, 0U, 0U, 0U, 0U, 0U, 0U, 0U, 0U,
        0U, 0U, 0U, 0U, 0U, 0U, 0U, 0U, 0U, 0U, 0U, 0U, 0U, 0U, 0U, 0U, 0U, 0U, 0U, 0U, 0U,
        0U
    };
    const uint8_t* in_data_uchar = (const uint8_t*)in;
    bool pad_bool = (in_len > 0U) && (((in_len % 4U) != 0U) || (in_data_uchar[in_len - 1U] == (uint8_t)'='));
    uint32_t pad_uint = 0U;
    if (pad_bool) {
        pad_uint = 1U;
    }
    const size_t len = (((in_len + 3U) / 4U) - pad_uint) * 4U;
    const size_t out_len = ((len / 4U) * 3U) + pad_uint;

    if (out_len > max_out_len) {
        success = 1;
    }

    if (len == 0U) {
        success = 1;
    }

    if (success == 0) {
        size_t j = 0U;
        for (size_t i = 0U; i < len; i += 4U) {
            uint32_t n = (base64_index[in_data_uchar[i]] << 18U) | (base64_index[in_data_uchar[i + 1U]] << 12U) |
                         (base64_index[in_data_uchar[i + 2U]] << 6U) | (base64_index[in_data_uchar[i + 3U]]);
            out[j] = (uint8_t)(n >> 16U);
            ++j;
            out[j] = (uint8_t)((n >> 8U) & 0xFFU);
            ++j;
            out[j] = (uint8_t)(n & 0xFFU);
            ++j;
        }
        if (pad_bool) {
            uint32_t n = (base64_index[in_data_uchar[len]] << 18U) | (base64_index[in_data_uchar[len + 1U]] << 12U);
            out[out_len - 1U] = (uint8_t)(n >> 16U);

            if ((in_len > (len + 2U)) && (in_data_uchar[len + 2U] != (uint8_t)'=')) {
                if ((out_len + 1U) > max_out_len) {
                    success = 1;
                } else {
                    n |= base64_index[in_data_uchar[len + 2U]] << 6U;
                    out[out_len] = (uint8_t)((n >> 8U) & 0xFFU);
                }
            }
        }
    }

    return success;
}
".

(** Src/json.c *)
Definition text_json_c : string :=
"/****************************************************************************
 *
 *   Copyright (c) 2021 IMProject Development Team. All rights reserved.
 *   Authors: Igor Misic <igy1000mb@gmail.com>
 *
 * Redistribution and use in source and binary forms, with or without
 * modification, are permitted provided that the following conditions
 * are met:
 *
 * 1. Redistributions of source code must retain the above copyright
 *    notice, this list of conditions and the following disclaimer.
 * 2. Redistributions in binary form must reproduce the above copyright
 *    notice, this list of conditions and the following disclaimer in
 *    the documentation and/or other materials provided with the
 *    distribution.
 * 3. Neither the name IMProject nor the names of its contributors may be
 *    used to endorse or promote products derived from this software
 *    without specific prior written permission.
 *
 * THIS SOFTWARE IS PROVIDED BY THE COPYRIGHT HOLDERS AND CONTRIBUTORS
 * ""AS IS"" AND ANY EXPRESS OR IMPLIED WARRANTIES, INCLUDING, BUT NOT
 * LIMITED TO, THE IMPLIED WARRANTIES OF MERCHANTABILITY AND FITNESS
 * FOR A PARTICULAR PURPOSE ARE DISCLAIMED. IN NO EVENT SHALL THE
 * COPYRIGHT OWNER OR CONTRIBUTORS BE LIABLE FOR ANY DIRECT, INDIRECT,
 * INCIDENTAL, SPECIAL, EXEMPLARY, OR CONSEQUENTIAL DAMAGES (INCLUDING,
 * BUT NOT LIMITED TO, PROCUREMENT OF SUBSTITUTE GOODS OR SERVICES; LOSS
 * OF USE, DATA, OR PROFITS; OR BUSINESS INTERRUPTION) HOWEVER CAUSED
 * AND ON ANY THEORY OF LIABILITY, WHETHER IN CONTRACT, STRICT
 * LIABILITY, OR TORT (INCLUDING NEGLIGENCE OR OTHERWISE) ARISING IN
 * ANY WAY OUT OF THE USE OF THIS SOFTWARE, EVEN IF ADVISED OF THE
 * POSSIBILITY OF SUCH DAMAGE.
 *
 ****************************************************************************/

#include ""json.h""

#include ""utils.h""

#define MINIMAL_SIZE 2U // size of '{' or '}' + '\0'

bool
Json_startString(char* buffer, size_t buffer_size) {
    bool success = false;

    if (buffer_size >= MINIMAL_SIZE) {
        // cppcheck-suppress misra-c2012-17.7; return value is not needed in this case, therefore it is not used
        strcpy(&buffer[0], ""{"");
        success = true;
    }

    return success;
}

bool
Json_addData(char* buffer, size_t buffer_size, const char* key, const char* value) {
    bool success = false;

    size_t index = strlen(buffer);
    size_t total_size = strlen(""\""\"":\""\"""") + strlen(key) + strlen(value) + 1U;

    if (0 == strcmp(&buffer[index - 1U], ""\"""")) {
        // cppcheck-suppress misra-c2012-17.7; return value is not needed in this case, therefore it is not used
        strcpy(&buffer[index], "","");
        ++index;
    }

    if ((total_size + index) <= buffer_size) {
        // cppcheck-suppress misra-c2012-17.7; return value is not needed in this case, therefore it is not used
        strcpy(&buffer[index], ""\"""");
        index += strlen(""\"""");
        // cppcheck-suppress misra-c2012-17.7; return value is not needed in this case, therefore it is not used
        /* -E> compliant MC3R1.R19.1 1 Overlap will not happen because of the check in if statement. */
        strcpy(&buffer[index], key);
        index += strlen(key);
        // cppcheck-suppress misra-c2012-17.7; return value is not needed in this case, therefore it is not used
        strcpy(&buffer[index], ""\"":\"""");
        index += strlen(""\"":\"""");
        // cppcheck-suppress misra-c2012-17.7; return value is not needed in this case, therefore it is not used
        /* -E> compliant MC3R1.R19.1 1 Overlap will not happen because of the check in if statement. */
        strcpy(&buffer[index], value);
        index += strlen(value);
        // cppcheck-suppress misra-c2012-17.7; return value is not needed in this case, therefore it is not used
        strcpy(&buffer[index], ""\"""");

        success = true;
    }

    return success;
}

bool
Json_endString(char* buffer, size_t buffer_size) {
    bool success = false;

    size_t index = strlen(buffer);
    if (buffer_size >= (MINIMAL_SIZE + index)) {
        // cppcheck-suppress misra-c2012-17.7; return value is not needed in this case, therefore it is not used
        strcpy(&buffer[index], ""}"");
        success = true;
    }

    return success;
}

bool
Json_findByKey(const char* buffer, size_t buffer_size, const char* key, char* value, size_t max_value_size) {
    bool success = false;

    size_t key_size = strlen(key);
    uint32_t max_search_size = 0U;
    uint32_t index;

    if (buffer_size > key_size) {
        max_search_size = (uint32_t)(buffer_size - key_size);
    }

    for (index = 0U; index < max_search_size; ++index) {

        /* -E> compliant MC3R1.R21.18 2 strncmp is guarded in for loop condition to not go out of buffer boundaries
        by calculating max_search_size from buffer size and key size */
        if (0 == strncmp(&buffer[index], key, key_size)) {

            if (buffer[index + key_size] == '""') {
                success = true;
            }

            break;
        }
    }

    if (success) {

        success = false;
        for (index += (uint32_t)(key_size + 1U); index < buffer_size; ++index) {

            if (buffer[index] == '""') {
                break;
            }
        }

        size_t value_size = 0;
        ++index;

        while ((index < buffer_size) && (value_size < max_value_size)) {
            value[value_size] = buffer[index];

            if (buffer[index] == '""') {
                value[value_size] = '\0';
                success = true;
                break;
            }

            ++value_size;
            ++index;
        }
    }

    return success;
}
".

(** the files by name *)
Definition text_utils : list (string * string) :=
  (("utils.c", text_utils_c)
   :: ("bit_manipulation.c", text_bit_manipulation_c)
   :: ("base64.c", text_base64_c)
   :: ("json.c", text_json_c)
   :: nil)%list.
