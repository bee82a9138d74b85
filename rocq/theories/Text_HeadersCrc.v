(** * The text of files in [/repo/Inc]

    Copied by [/verif/tools/embed.py], which changes nothing but writes each double quote twice
    (that is how Coq writes one inside a string); [embed.py --check] compares. *)
From Coq Require Import String.
Local Open Scope string_scope.

(** Inc/crc/crc8_variants/crc8.h *)
Definition text_crc8_h : string :=
"/****************************************************************************
 *
 *   Copyright (c) 2023 IMProject Development Team. All rights reserved.
 *   Authors: Igor Misic <igy1000mb@gmail.com>
 *
 * Redistribution and use in source and binary forms, with or without
 * modification, are permitted provided that the following conditions
 * are met:
 *
 * 1. Redistributions of source code must retain the above copyright
 *    notice, this list of conditions and the following disclaimer.
 * 2. Redistributions in binary form must reproduce the above copyright
 *    notice, this list of conditions and the following disclaimer in
 *    the documentation and/or other materials provided with the
 *    distribution.
 * 3. Neither the name IMProject nor the names of its contributors may be
 *    used to endorse or promote products derived from this software
 *    without specific prior written permission.
 *
 * THIS SOFTWARE IS PROVIDED BY THE COPYRIGHT HOLDERS AND CONTRIBUTORS
 * ""AS IS"" AND ANY EXPRESS OR IMPLIED WARRANTIES, INCLUDING, BUT NOT
 * LIMITED TO, THE IMPLIED WARRANTIES OF MERCHANTABILITY AND FITNESS
 * FOR A PARTICULAR PURPOSE ARE DISCLAIMED. IN NO EVENT SHALL THE
 * COPYRIGHT OWNER OR CONTRIBUTORS BE LIABLE FOR ANY DIRECT, INDIRECT,
 * INCIDENTAL, SPECIAL, EXEMPLARY, OR CONSEQUENTIAL DAMAGES (INCLUDING,
 * BUT NOT LIMITED TO, PROCUREMENT OF SUBSTITUTE GOODS OR SERVICES; LOSS
 * OF USE, DATA, OR PROFITS; OR BUSINESS INTERRUPTION) HOWEVER CAUSED
 * AND ON ANY THEORY OF LIABILITY, WHETHER IN CONTRACT, STRICT
 * LIABILITY, OR TORT (INCLUDING NEGLIGENCE OR OTHERWISE) ARISING IN
 * ANY WAY OUT OF THE USE OF THIS SOFTWARE, EVEN IF ADVISED OF THE
 * POSSIBILITY OF SUCH DAMAGE.
 *
 ****************************************************************************/

#ifndef UTILITY_CRC8_H_
#define UTILITY_CRC8_H_

#include ""typedefs.h""

/**
 * @brief Calculates an 8-bit CRC checksum for a block of data using a basic algorithm.
 *
 * This function calculates an 8-bit CRC checksum for the given block of data
 * using a basic algorithm that uses the polynomial x^8 + x^2 + x^1 + 1 (0x07).
 * The 'crc_data_ptr' parameter should be a pointer to the block of data to
 * calculate the checksum for. The 'crc_length' parameter is the length of the
 * data block in bytes. The calculation is performed using a lookup table for efficiency.
 *
 * @param[in] crc_data_ptr A pointer to the data block to calculate the checksum for.
 * @param[in] crc_length The length of the data block in bytes.
 * @param[in] last_crc_ptr Pointer to the last CRC value for data chunks. Shall be set to NULL_PTR if it is the first or only operation.
 *
 * @return The calculated CRC checksum.
 */
uint8_t Crc8(
    const uint8_t* crc_data_ptr,
    uint32_t crc_length,
    const uint8_t* last_crc_ptr
);

#endif /* UTILITY_CRC8_H_ */
".

(** Inc/crc/crc8_variants/crc8_8h2f.h *)
Definition text_crc8_8h2f_h : string :=
"/****************************************************************************
 *
 *   Copyright (c) 2023 IMProject Development Team. All rights reserved.
 *   Authors: Igor Misic <igy1000mb@gmail.com>
 *
 * Redistribution and use in source and binary forms, with or without
 * modification, are permitted provided that the following conditions
 * are met:
 *
 * 1. Redistributions of source code must retain the above copyright
 *    notice, this list of conditions and the following disclaimer.
 * 2. Redistributions in binary form must reproduce the above copyright
 *    notice, this list of conditions and the following disclaimer in
 *    the documentation and/or other materials provided with the
 *    distribution.
 * 3. Neither the name IMProject nor the names of its contributors may be
 *    used to endorse or promote products derived from this software
 *    without specific prior written permission.
 *
 * THIS SOFTWARE IS PROVIDED BY THE COPYRIGHT HOLDERS AND CONTRIBUTORS
 * ""AS IS"" AND ANY EXPRESS OR IMPLIED WARRANTIES, INCLUDING, BUT NOT
 * LIMITED TO, THE IMPLIED WARRANTIES OF MERCHANTABILITY AND FITNESS
 * FOR A PARTICULAR PURPOSE ARE DISCLAIMED. IN NO EVENT SHALL THE
 * COPYRIGHT OWNER OR CONTRIBUTORS BE LIABLE FOR ANY DIRECT, INDIRECT,
 * INCIDENTAL, SPECIAL, EXEMPLARY, OR CONSEQUENTIAL DAMAGES (INCLUDING,
 * BUT NOT LIMITED TO, PROCUREMENT OF SUBSTITUTE GOODS OR SERVICES; LOSS
 * OF USE, DATA, OR PROFITS; OR BUSINESS INTERRUPTION) HOWEVER CAUSED
 * AND ON ANY THEORY OF LIABILITY, WHETHER IN CONTRACT, STRICT
 * LIABILITY, OR TORT (INCLUDING NEGLIGENCE OR OTHERWISE) ARISING IN
 * ANY WAY OUT OF THE USE OF THIS SOFTWARE, EVEN IF ADVISED OF THE
 * POSSIBILITY OF SUCH DAMAGE.
 *
 ****************************************************************************/

#ifndef UTILITY_CRC8_8H2F_H_
#define UTILITY_CRC8_8H2F_H_

#include ""typedefs.h""

/**
 * @brief Calculates an 8-bit CRC checksum for a block of data using the 8H2F polynomial (0x2F).
 *
 * This function calculates an 8-bit CRC checksum for the given block of data
 * using the 8H2F polynomial (0x2F). The 'crc_data_ptr' parameter should be
 * a pointer to the block of data to calculate the checksum for. The 'crc_length'
 * parameter is the length of the data block in bytes.
 * The calculation is performed using a lookup table for efficiency.
 *
 * @param[in] crc_data_ptr A pointer to the data block to calculate the checksum for.
 * @param[in] crc_length The length of the data block in bytes.
 * @param[in] final_crc Set the flag to 'true' if it is the last or only operation, and 'false' for data chunks.
 * @param[in] last_crc_ptr Pointer to the last CRC value for data chunks. Shall be set to NULL_PTR if it is the first or only operation.
 *
 * @return The calculated CRC checksum.
 */
uint8_t Crc8_8h2f(
    const uint8_t* crc_data_ptr,
    uint32_t crc_length,
    bool final_crc,
    const uint8_t* last_crc_ptr
);

#endif /* UTILITY_CRC8_8H2F_H_ */
".

(** Inc/crc/crc8_variants/crc8_cdma2000.h *)
Definition text_crc8_cdma2000_h : string :=
"/****************************************************************************
 *
 *   Copyright (c) 2023 IMProject Development Team. All rights reserved.
 *   Authors: Igor Misic <igy1000mb@gmail.com>
 *
 * Redistribution and use in source and binary forms, with or without
 * modification, are permitted provided that the following conditions
 * are met:
 *
 * 1. Redistributions of source code must retain the above copyright
 *    notice, this list of conditions and the following disclaimer.
 * 2. Redistributions in binary form must reproduce the above copyright
 *    notice, this list of conditions and the following disclaimer in
 *    the documentation and/or other materials provided with the
 *    distribution.
 * 3. Neither the name IMProject nor the names of its contributors may be
 *    used to endorse or promote products derived from this software
 *    without specific prior written permission.
 *
 * THIS SOFTWARE IS PROVIDED BY THE COPYRIGHT HOLDERS AND CONTRIBUTORS
 * ""AS IS"" AND ANY EXPRESS OR IMPLIED WARRANTIES, INCLUDING, BUT NOT
 * LIMITED TO, THE IMPLIED WARRANTIES OF MERCHANTABILITY AND FITNESS
 * FOR A PARTICULAR PURPOSE ARE DISCLAIMED. IN NO EVENT SHALL THE
 * COPYRIGHT OWNER OR CONTRIBUTORS BE LIABLE FOR ANY DIRECT, INDIRECT,
 * INCIDENTAL, SPECIAL, EXEMPLARY, OR CONSEQUENTIAL DAMAGES (INCLUDING,
 * BUT NOT LIMITED TO, PROCUREMENT OF SUBSTITUTE GOODS OR SERVICES; LOSS
 * OF USE, DATA, OR PROFITS; OR BUSINESS INTERRUPTION) HOWEVER CAUSED
 * AND ON ANY THEORY OF LIABILITY, WHETHER IN CONTRACT, STRICT
 * LIABILITY, OR TORT (INCLUDING NEGLIGENCE OR OTHERWISE) ARISING IN
 * ANY WAY OUT OF THE USE OF THIS SOFTWARE, EVEN IF ADVISED OF THE
 * POSSIBILITY OF SUCH DAMAGE.
 *
 ****************************************************************************/

#ifndef UTILITY_CRC8_CDMA2000_H_
#define UTILITY_CRC8_CDMA2000_H_

#include ""typedefs.h""

/**
 * @brief Calculates an 8-bit CRC checksum for a block of data using the polynomial 0x9B.
 *
 * This function calculates an 8-bit CRC checksum for the given block of data
 * using the polynomial x^7 + x^4 + x^3 + x + 1 (0x9B), which is commonly used in
 * CDMA2000 systems. The 'crc_data_ptr' parameter should be a pointer to the
 * block of data to calculate the checksum for. The 'crc_length' parameter
 * is the length of the data block in bytes.
 * The calculation is performed using a lookup table for efficiency.
 *
 * @param[in] crc_data_ptr A pointer to the data block to calculate the checksum for.
 * @param[in] crc_length The length of the data block in bytes.
 * @param[in] last_crc_ptr Pointer to the last CRC value for data chunks. Shall be set to NULL_PTR if it is the first or only operation.
 *
 * @return The calculated CRC checksum.
 */
uint8_t Crc8_cdma2000(
    const uint8_t* crc_data_ptr,
    uint32_t crc_length,
    const uint8_t* last_crc_ptr
);

#endif /* UTILITY_CRC8_CDMA2000_H_ */
".

(** Inc/crc/crc8_variants/crc8_darc.h *)
Definition text_crc8_darc_h : string :=
"/****************************************************************************
 *
 *   Copyright (c) 2023 IMProject Development Team. All rights reserved.
 *   Authors: Igor Misic <igy1000mb@gmail.com>
 *
 * Redistribution and use in source and binary forms, with or without
 * modification, are permitted provided that the following conditions
 * are met:
 *
 * 1. Redistributions of source code must retain the above copyright
 *    notice, this list of conditions and the following disclaimer.
 * 2. Redistributions in binary form must reproduce the above copyright
 *    notice, this list of conditions and the following disclaimer in
 *    the documentation and/or other materials provided with the
 *    distribution.
 * 3. Neither the name IMProject nor the names of its contributors may be
 *    used to endorse or promote products derived from this software
 *    without specific prior written permission.
 *
 * THIS SOFTWARE IS PROVIDED BY THE COPYRIGHT HOLDERS AND CONTRIBUTORS
 * ""AS IS"" AND ANY EXPRESS OR IMPLIED WARRANTIES, INCLUDING, BUT NOT
 * LIMITED TO, THE IMPLIED WARRANTIES OF MERCHANTABILITY AND FITNESS
 * FOR A PARTICULAR PURPOSE ARE DISCLAIMED. IN NO EVENT SHALL THE
 * COPYRIGHT OWNER OR CONTRIBUTORS BE LIABLE FOR ANY DIRECT, INDIRECT,
 * INCIDENTAL, SPECIAL, EXEMPLARY, OR CONSEQUENTIAL DAMAGES (INCLUDING,
 * BUT NOT LIMITED TO, PROCUREMENT OF SUBSTITUTE GOODS OR SERVICES; LOSS
 * OF USE, DATA, OR PROFITS; OR BUSINESS INTERRUPTION) HOWEVER CAUSED
 * AND ON ANY THEORY OF LIABILITY, WHETHER IN CONTRACT, STRICT
 * LIABILITY, OR TORT (INCLUDING NEGLIGENCE OR OTHERWISE) ARISING IN
 * ANY WAY OUT OF THE USE OF THIS SOFTWARE, EVEN IF ADVISED OF THE
 * POSSIBILITY OF SUCH DAMAGE.
 *
 ****************************************************************************/

#ifndef UTILITY_CRC8_DARC_H_
#define UTILITY_CRC8_DARC_H_

#include ""typedefs.h""

/**
 * @brief Calculates the CRC-8 checksum using the DARC polynomial (0x39).
 *
 * This function takes a pointer to a block of data and its length, and returns
 * the CRC-8 checksum calculated using the DARC (Data Radio Channel) polynomial (0x39).
 * The checksum is returned as an unsigned 8-bit integer.
 * The calculation is performed using a lookup table for efficiency.
 *
 * @param[in] crc_data_ptr A pointer to the block of data to calculate the checksum for.
 * @param[in] crc_length The length of the data block in bytes.
 * @param[in] final_crc Set the flag to 'true' if it is the last or only operation, and 'false' for data chunks.
 * @param[in] last_crc_ptr Pointer to the last CRC value for data chunks. Shall be set to NULL_PTR if it is the first or only operation.
 *
 * @return The calculated CRC-8 checksum.
 */
uint8_t Crc8_darc(
    const uint8_t* crc_data_ptr,
    uint32_t crc_length,
    bool final_crc,
    const uint8_t* last_crc_ptr
);

#endif /* UTILITY_CRC8_DARC_H_ */
".

(** Inc/crc/crc8_variants/crc8_dvb_s2.h *)
Definition text_crc8_dvb_s2_h : string :=
"/****************************************************************************
 *
 *   Copyright (c) 2023 IMProject Development Team. All rights reserved.
 *   Authors: Igor Misic <igy1000mb@gmail.com>
 *
 * Redistribution and use in source and binary forms, with or without
 * modification, are permitted provided that the following conditions
 * are met:
 *
 * 1. Redistributions of source code must retain the above copyright
 *    notice, this list of conditions and the following disclaimer.
 * 2. Redistributions in binary form must reproduce the above copyright
 *    notice, this list of conditions and the following disclaimer in
 *    the documentation and/or other materials provided with the
 *    distribution.
 * 3. Neither the name IMProject nor the names of its contributors may be
 *    used to endorse or promote products derived from this software
 *    without specific prior written permission.
 *
 * THIS SOFTWARE IS PROVIDED BY THE COPYRIGHT HOLDERS AND CONTRIBUTORS
 * ""AS IS"" AND ANY EXPRESS OR IMPLIED WARRANTIES, INCLUDING, BUT NOT
 * LIMITED TO, THE IMPLIED WARRANTIES OF MERCHANTABILITY AND FITNESS
 * FOR A PARTICULAR PURPOSE ARE DISCLAIMED. IN NO EVENT SHALL THE
 * COPYRIGHT OWNER OR CONTRIBUTORS BE LIABLE FOR ANY DIRECT, INDIRECT,
 * INCIDENTAL, SPECIAL, EXEMPLARY, OR CONSEQUENTIAL DAMAGES (INCLUDING,
 * BUT NOT LIMITED TO, PROCUREMENT OF SUBSTITUTE GOODS OR SERVICES; LOSS
 * OF USE, DATA, OR PROFITS; OR BUSINESS INTERRUPTION) HOWEVER CAUSED
 * AND ON ANY THEORY OF LIABILITY, WHETHER IN CONTRACT, STRICT
 * LIABILITY, OR TORT (INCLUDING NEGLIGENCE OR OTHERWISE) ARISING IN
 * ANY WAY OUT OF THE USE OF THIS SOFTWARE, EVEN IF ADVISED OF THE
 * POSSIBILITY OF SUCH DAMAGE.
 *
 ****************************************************************************/

#ifndef UTILITY_CRC8_DVB_S2_H_
#define UTILITY_CRC8_DVB_S2_H_

#include ""typedefs.h""

/**
 * @brief Calculates the CRC8-DVB-S2 checksum for the given data.
 *
 * This function calculates the CRC8-DVB-S2 checksum using the polynomial 0xD5.
 * The calculation is performed using a lookup table for efficiency.
 *
 * @param[in] crc_data_ptr A pointer to the block of data to calculate the checksum for.
 * @param[in] crc_length The length of the data block in bytes.
 * @param[in] last_crc_ptr Pointer to the last CRC value for data chunks. Shall be set to NULL_PTR if it is the first or only operation.
 *
 * @return The calculated CRC8-DVB-S2 checksum.
 */
uint8_t Crc8_dvbS2(
    const uint8_t* crc_data_ptr,
    uint32_t crc_length,
    const uint8_t* last_crc_ptr
);

#endif /* UTILITY_CRC8_DVB_S2_H_ */
".

(** Inc/crc/crc8_variants/crc8_ebu.h *)
Definition text_crc8_ebu_h : string :=
"/****************************************************************************
 *
 *   Copyright (c) 2023 IMProject Development Team. All rights reserved.
 *   Authors: Igor Misic <igy1000mb@gmail.com>
 *
 * Redistribution and use in source and binary forms, with or without
 * modification, are permitted provided that the following conditions
 * are met:
 *
 * 1. Redistributions of source code must retain the above copyright
 *    notice, this list of conditions and the following disclaimer.
 * 2. Redistributions in binary form must reproduce the above copyright
 *    notice, this list of conditions and the following disclaimer in
 *    the documentation and/or other materials provided with the
 *    distribution.
 * 3. Neither the name IMProject nor the names of its contributors may be
 *    used to endorse or promote products derived from this software
 *    without specific prior written permission.
 *
 * THIS SOFTWARE IS PROVIDED BY THE COPYRIGHT HOLDERS AND CONTRIBUTORS
 * ""AS IS"" AND ANY EXPRESS OR IMPLIED WARRANTIES, INCLUDING, BUT NOT
 * LIMITED TO, THE IMPLIED WARRANTIES OF MERCHANTABILITY AND FITNESS
 * FOR A PARTICULAR PURPOSE ARE DISCLAIMED. IN NO EVENT SHALL THE
 * COPYRIGHT OWNER OR CONTRIBUTORS BE LIABLE FOR ANY DIRECT, INDIRECT,
 * INCIDENTAL, SPECIAL, EXEMPLARY, OR CONSEQUENTIAL DAMAGES (INCLUDING,
 * BUT NOT LIMITED TO, PROCUREMENT OF SUBSTITUTE GOODS OR SERVICES; LOSS
 * OF USE, DATA, OR PROFITS; OR BUSINESS INTERRUPTION) HOWEVER CAUSED
 * AND ON ANY THEORY OF LIABILITY, WHETHER IN CONTRACT, STRICT
 * LIABILITY, OR TORT (INCLUDING NEGLIGENCE OR OTHERWISE) ARISING IN
 * ANY WAY OUT OF THE USE OF THIS SOFTWARE, EVEN IF ADVISED OF THE
 * POSSIBILITY OF SUCH DAMAGE.
 *
 ****************************************************************************/

#ifndef UTILITY_CRC8_EBU_H_
#define UTILITY_CRC8_EBU_H_

#include ""typedefs.h""

/**
 * @brief Calculates the CRC-8 checksum using the EBU polynomial (0x1D).
 *
 * This function calculates the CRC-8 checksum of the given data using the EBU
 * polynomial (0x1D). The calculation is performed using a lookup table for
 * efficiency.
 *
 * @param[in] crc_data_ptr A pointer to the block of data to calculate the checksum for.
 * @param[in] crc_length The length of the data block in bytes.
 * @param[in] final_crc Set the flag to 'true' if it is the last or only operation, and 'false' for data chunks.
 * @param[in] last_crc_ptr Pointer to the last CRC value for data chunks. Shall be set to NULL_PTR if it is the first or only operation.
 *
 * @return The calculated CRC-8 checksum.
 */
uint8_t Crc8_ebu(
    const uint8_t* crc_data_ptr,
    uint32_t crc_length,
    bool final_crc,
    const uint8_t* last_crc_ptr
);

#endif /* UTILITY_CRC8_EBU_H_ */
".

(** Inc/crc/crc8_variants/crc8_icode.h *)
Definition text_crc8_icode_h : string :=
"/****************************************************************************
 *
 *   Copyright (c) 2023 IMProject Development Team. All rights reserved.
 *   Authors: Igor Misic <igy1000mb@gmail.com>
 *
 * Redistribution and use in source and binary forms, with or without
 * modification, are permitted provided that the following conditions
 * are met:
 *
 * 1. Redistributions of source code must retain the above copyright
 *    notice, this list of conditions and the following disclaimer.
 * 2. Redistributions in binary form must reproduce the above copyright
 *    notice, this list of conditions and the following disclaimer in
 *    the documentation and/or other materials provided with the
 *    distribution.
 * 3. Neither the name IMProject nor the names of its contributors may be
 *    used to endorse or promote products derived from this software
 *    without specific prior written permission.
 *
 * THIS SOFTWARE IS PROVIDED BY THE COPYRIGHT HOLDERS AND CONTRIBUTORS
 * ""AS IS"" AND ANY EXPRESS OR IMPLIED WARRANTIES, INCLUDING, BUT NOT
 * LIMITED TO, THE IMPLIED WARRANTIES OF MERCHANTABILITY AND FITNESS
 * FOR A PARTICULAR PURPOSE ARE DISCLAIMED. IN NO EVENT SHALL THE
 * COPYRIGHT OWNER OR CONTRIBUTORS BE LIABLE FOR ANY DIRECT, INDIRECT,
 * INCIDENTAL, SPECIAL, EXEMPLARY, OR CONSEQUENTIAL DAMAGES (INCLUDING,
 * BUT NOT LIMITED TO, PROCUREMENT OF SUBSTITUTE GOODS OR SERVICES; LOSS
 * OF USE, DATA, OR PROFITS; OR BUSINESS INTERRUPTION) HOWEVER CAUSED
 * AND ON ANY THEORY OF LIABILITY, WHETHER IN CONTRACT, STRICT
 * LIABILITY, OR TORT (INCLUDING NEGLIGENCE OR OTHERWISE) ARISING IN
 * ANY WAY OUT OF THE USE OF THIS SOFTWARE, EVEN IF ADVISED OF THE
 * POSSIBILITY OF SUCH DAMAGE.
 *
 ****************************************************************************/

#ifndef UTILITY_CRC8_ICODE_H_
#define UTILITY_CRC8_ICODE_H_

#include ""typedefs.h""

/**
 * @brief Calculates the CRC-8 checksum using the ICODE polynomial (0x1D).
 *
 * This function calculates the CRC-8 checksum of the given data using the ICODE
 * polynomial (0x1D). The calculation is performed using a lookup table for
 * efficiency.
 *
 * @param[in] crc_data_ptr A pointer to the block of data to calculate the checksum for.
 * @param[in] crc_length The length of the data block in bytes.
 * @param[in] last_crc_ptr Pointer to the last CRC value for data chunks. Shall be set to NULL_PTR if it is the first or only operation.
 *
 * @return The calculated CRC-8 checksum.
 */
uint8_t Crc8_icode(
    const uint8_t* crc_data_ptr,
    uint32_t crc_length,
    const uint8_t* last_crc_ptr
);

#endif /* UTILITY_CRC8_ICODE_H_ */
".

(** Inc/crc/crc8_variants/crc8_itu.h *)
Definition text_crc8_itu_h : string :=
"/****************************************************************************
 *
 *   Copyright (c) 2023 IMProject Development Team. All rights reserved.
 *   Authors: Igor Misic <igy1000mb@gmail.com>
 *
 * Redistribution and use in source and binary forms, with or without
 * modification, are permitted provided that the following conditions
 * are met:
 *
 * 1. Redistributions of source code must retain the above copyright
 *    notice, this list of conditions and the following disclaimer.
 * 2. Redistributions in binary form must reproduce the above copyright
 *    notice, this list of conditions and the following disclaimer in
 *    the documentation and/or other materials provided with the
 *    distribution.
 * 3. Neither the name IMProject nor the names of its contributors may be
 *    used to endorse or promote products derived from this software
 *    without specific prior written permission.
 *
 * THIS SOFTWARE IS PROVIDED BY THE COPYRIGHT HOLDERS AND CONTRIBUTORS
 * ""AS IS"" AND ANY EXPRESS OR IMPLIED WARRANTIES, INCLUDING, BUT NOT
 * LIMITED TO, THE IMPLIED WARRANTIES OF MERCHANTABILITY AND FITNESS
 * FOR A PARTICULAR PURPOSE ARE DISCLAIMED. IN NO EVENT SHALL THE
 * COPYRIGHT OWNER OR CONTRIBUTORS BE LIABLE FOR ANY DIRECT, INDIRECT,
 * INCIDENTAL, SPECIAL, EXEMPLARY, OR CONSEQUENTIAL DAMAGES (INCLUDING,
 * BUT NOT LIMITED TO, PROCUREMENT OF SUBSTITUTE GOODS OR SERVICES; LOSS
 * OF USE, DATA, OR PROFITS; OR BUSINESS INTERRUPTION) HOWEVER CAUSED
 * AND ON ANY THEORY OF LIABILITY, WHETHER IN CONTRACT, STRICT
 * LIABILITY, OR TORT (INCLUDING NEGLIGENCE OR OTHERWISE) ARISING IN
 * ANY WAY OUT OF THE USE OF THIS SOFTWARE, EVEN IF ADVISED OF THE
 * POSSIBILITY OF SUCH DAMAGE.
 *
 ****************************************************************************/

#ifndef UTILITY_CRC8_ITU_H_
#define UTILITY_CRC8_ITU_H_

#include ""typedefs.h""

/**
 * @brief Calculates the CRC-8 checksum using the ITU polynomial (0x07).
 *
 * This function calculates the CRC-8 checksum of the given data using the ITU
 * polynomial (0x07). The calculation is performed using a lookup table for
 * efficiency.
 *
 * @param[in] crc_data_ptr A pointer to the block of data to calculate the checksum for.
 * @param[in] crc_length The length of the data block in bytes.
 * @param[in] final_crc Set the flag to 'true' if it is the last or only operation, and 'false' for data chunks.
 * @param[in] last_crc_ptr Pointer to the last CRC value for data chunks. Shall be set to NULL_PTR if it is the first or only operation.
 *
 * @return The calculated CRC-8 checksum.
 */
uint8_t Crc8_itu(
    const uint8_t* crc_data_ptr,
    uint32_t crc_length,
    bool final_crc,
    const uint8_t* last_crc_ptr
);

#endif /* UTILITY_CRC8_ITU_H_ */
".

(** Inc/crc/crc8_variants/crc8_maxim.h *)
Definition text_crc8_maxim_h : string :=
"/****************************************************************************
 *
 *   Copyright (c) 2023 IMProject Development Team. All rights reserved.
 *   Authors: Igor Misic <igy1000mb@gmail.com>
 *
 * Redistribution and use in source and binary forms, with or without
 * modification, are permitted provided that the following conditions
 * are met:
 *
 * 1. Redistributions of source code must retain the above copyright
 *    notice, this list of conditions and the following disclaimer.
 * 2. Redistributions in binary form must reproduce the above copyright
 *    notice, this list of conditions and the following disclaimer in
 *    the documentation and/or other materials provided with the
 *    distribution.
 * 3. Neither the name IMProject nor the names of its contributors may be
 *    used to endorse or promote products derived from this software
 *    without specific prior written permission.
 *
 * THIS SOFTWARE IS PROVIDED BY THE COPYRIGHT HOLDERS AND CONTRIBUTORS
 * ""AS IS"" AND ANY EXPRESS OR IMPLIED WARRANTIES, INCLUDING, BUT NOT
 * LIMITED TO, THE IMPLIED WARRANTIES OF MERCHANTABILITY AND FITNESS
 * FOR A PARTICULAR PURPOSE ARE DISCLAIMED. IN NO EVENT SHALL THE
 * COPYRIGHT OWNER OR CONTRIBUTORS BE LIABLE FOR ANY DIRECT, INDIRECT,
 * INCIDENTAL, SPECIAL, EXEMPLARY, OR CONSEQUENTIAL DAMAGES (INCLUDING,
 * BUT NOT LIMITED TO, PROCUREMENT OF SUBSTITUTE GOODS OR SERVICES; LOSS
 * OF USE, DATA, OR PROFITS; OR BUSINESS INTERRUPTION) HOWEVER CAUSED
 * AND ON ANY THEORY OF LIABILITY, WHETHER IN CONTRACT, STRICT
 * LIABILITY, OR TORT (INCLUDING NEGLIGENCE OR OTHERWISE) ARISING IN
 * ANY WAY OUT OF THE USE OF THIS SOFTWARE, EVEN IF ADVISED OF THE
 * POSSIBILITY OF SUCH DAMAGE.
 *
 ****************************************************************************/

#ifndef UTILITY_CRC8_MAXIM_H_
#define UTILITY_CRC8_MAXIM_H_

#include ""typedefs.h""

/**
 * @brief Calculates the CRC-8 checksum using the MAXIM polynomial (0x31).
 *
 * This function calculates the CRC-8 checksum of the given data using the MAXIM
 * polynomial (0x31). The calculation is performed using a lookup table for
 * efficiency.
 *
 * @param[in] crc_data_ptr A pointer to the block of data to calculate the checksum for.
 * @param[in] crc_length The length of the data block in bytes.
 * @param[in] final_crc Set the flag to 'true' if it is the last or only operation, and 'false' for data chunks.
 * @param[in] last_crc_ptr Pointer to the last CRC value for data chunks. Shall be set to NULL_PTR if it is the first or only operation.
 *
 * @return The calculated CRC-8 checksum.
 */
uint8_t Crc8_maxim(
    const uint8_t* crc_data_ptr,
    uint32_t crc_length,
    bool final_crc,
    const uint8_t* last_crc_ptr
);

#endif /* UTILITY_CRC8_MAXIM_H_ */
".

(** Inc/crc/crc8_variants/crc8_rohc.h *)
Definition text_crc8_rohc_h : string :=
"/****************************************************************************
 *
 *   Copyright (c) 2023 IMProject Development Team. All rights reserved.
 *   Authors: Igor Misic <igy1000mb@gmail.com>
 *
 * Redistribution and use in source and binary forms, with or without
 * modification, are permitted provided that the following conditions
 * are met:
 *
 * 1. Redistributions of source code must retain the above copyright
 *    notice, this list of conditions and the following disclaimer.
 * 2. Redistributions in binary form must reproduce the above copyright
 *    notice, this list of conditions and the following disclaimer in
 *    the documentation and/or other materials provided with the
 *    distribution.
 * 3. Neither the name IMProject nor the names of its contributors may be
 *    used to endorse or promote products derived from this software
 *    without specific prior written permission.
 *
 * THIS SOFTWARE IS PROVIDED BY THE COPYRIGHT HOLDERS AND CONTRIBUTORS
 * ""AS IS"" AND ANY EXPRESS OR IMPLIED WARRANTIES, INCLUDING, BUT NOT
 * LIMITED TO, THE IMPLIED WARRANTIES OF MERCHANTABILITY AND FITNESS
 * FOR A PARTICULAR PURPOSE ARE DISCLAIMED. IN NO EVENT SHALL THE
 * COPYRIGHT OWNER OR CONTRIBUTORS BE LIABLE FOR ANY DIRECT, INDIRECT,
 * INCIDENTAL, SPECIAL, EXEMPLARY, OR CONSEQUENTIAL DAMAGES (INCLUDING,
 * BUT NOT LIMITED TO, PROCUREMENT OF SUBSTITUTE GOODS OR SERVICES; LOSS
 * OF USE, DATA, OR PROFITS; OR BUSINESS INTERRUPTION) HOWEVER CAUSED
 * AND ON ANY THEORY OF LIABILITY, WHETHER IN CONTRACT, STRICT
 * LIABILITY, OR TORT (INCLUDING NEGLIGENCE OR OTHERWISE) ARISING IN
 * ANY WAY OUT OF THE USE OF THIS SOFTWARE, EVEN IF ADVISED OF THE
 * POSSIBILITY OF SUCH DAMAGE.
 *
 ****************************************************************************/

#ifndef UTILITY_CRC8_ROHC_H_
#define UTILITY_CRC8_ROHC_H_

#include ""typedefs.h""

/**
 * @brief Calculates the CRC-8 checksum using the MAXIM polynomial (0x07).
 *
 * This function calculates the CRC-8 checksum of the given data using the MAXIM
 * polynomial (0x07). The calculation is performed using a lookup table for
 * efficiency.
 *
 * @param[in] crc_data_ptr A pointer to the block of data to calculate the checksum for.
 * @param[in] crc_length The length of the data block in bytes.
 * @param[in] final_crc Set the flag to 'true' if it is the last or only operation, and 'false' for data chunks.
 * @param[in] last_crc_ptr Pointer to the last CRC value for data chunks. Shall be set to NULL_PTR if it is the first or only operation.
 *
 * @return The calculated CRC-8 checksum.
 */
uint8_t Crc8_rohc(
    const uint8_t* crc_data_ptr,
    uint32_t crc_length,
    bool final_crc,
    const uint8_t* last_crc_ptr
);

#endif /* UTILITY_CRC8_ROHC_H_ */
".

(** Inc/crc/crc8_variants/crc8_sae_j1850.h *)
Definition text_crc8_sae_j1850_h : string :=
"/****************************************************************************
 *
 *   Copyright (c) 2023 IMProject Development Team. All rights reserved.
 *   Authors: Igor Misic <igy1000mb@gmail.com>
 *
 * Redistribution and use in source and binary forms, with or without
 * modification, are permitted provided that the following conditions
 * are met:
 *
 * 1. Redistributions of source code must retain the above copyright
 *    notice, this list of conditions and the following disclaimer.
 * 2. Redistributions in binary form must reproduce the above copyright
 *    notice, this list of conditions and the following disclaimer in
 *    the documentation and/or other materials provided with the
 *    distribution.
 * 3. Neither the name IMProject nor the names of its contributors may be
 *    used to endorse or promote products derived from this software
 *    without specific prior written permission.
 *
 * THIS SOFTWARE IS PROVIDED BY THE COPYRIGHT HOLDERS AND CONTRIBUTORS
 * ""AS IS"" AND ANY EXPRESS OR IMPLIED WARRANTIES, INCLUDING, BUT NOT
 * LIMITED TO, THE IMPLIED WARRANTIES OF MERCHANTABILITY AND FITNESS
 * FOR A PARTICULAR PURPOSE ARE DISCLAIMED. IN NO EVENT SHALL THE
 * COPYRIGHT OWNER OR CONTRIBUTORS BE LIABLE FOR ANY DIRECT, INDIRECT,
 * INCIDENTAL, SPECIAL, EXEMPLARY, OR CONSEQUENTIAL DAMAGES (INCLUDING,
 * BUT NOT LIMITED TO, PROCUREMENT OF SUBSTITUTE GOODS OR SERVICES; LOSS
 * OF USE, DATA, OR PROFITS; OR BUSINESS INTERRUPTION) HOWEVER CAUSED
 * AND ON ANY THEORY OF LIABILITY, WHETHER IN CONTRACT, STRICT
 * LIABILITY, OR TORT (INCLUDING NEGLIGENCE OR OTHERWISE) ARISING IN
 * ANY WAY OUT OF THE USE OF THIS SOFTWARE, EVEN IF ADVISED OF THE
 * POSSIBILITY OF SUCH DAMAGE.
 *
 ****************************************************************************/

#ifndef UTILITY_CRC8_SAE_J1850_H_
#define UTILITY_CRC8_SAE_J1850_H_

#include ""typedefs.h""

/**
 * @brief Calculates the CRC-8 checksum using the SAE J1850 polynomial (0x1D).
 *
 * This function calculates an 8-bit CRC checksum for the given block of data
 * using the SAE J1850 polynomial (0x1D). The 'crc_data_ptr' parameter should be
 * a pointer to the block of data to calculate the checksum for. The 'crc_length'
 * parameter is the length of the data block in bytes.
 * The calculation is performed using a lookup table for efficiency.
 *
 * @param[in] crc_data_ptr A pointer to the data block to calculate the checksum for.
 * @param[in] crc_length The length of the data block in bytes.
 * @param[in] final_crc Set the flag to 'true' if it is the last or only operation, and 'false' for data chunks.
 * @param[in] last_crc_ptr Pointer to the last CRC value for data chunks. Shall be set to NULL_PTR if it is the first or only operation.
 */
uint8_t Crc8_saeJ1850(
    const uint8_t* crc_data_ptr,
    uint32_t crc_length,
    bool final_crc,
    const uint8_t* last_crc_ptr
);

#endif /* UTILITY_CRC8_SAE_J1850_H_ */
".

(** Inc/crc/crc8_variants/crc8_sae_j1850_zero.h *)
Definition text_crc8_sae_j1850_zero_h : string :=
"/****************************************************************************
 *
 *   Copyright (c) 2023 IMProject Development Team. All rights reserved.
 *   Authors: Igor Misic <igy1000mb@gmail.com>
 *
 * Redistribution and use in source and binary forms, with or without
 * modification, are permitted provided that the following conditions
 * are met:
 *
 * 1. Redistributions of source code must retain the above copyright
 *    notice, this list of conditions and the following disclaimer.
 * 2. Redistributions in binary form must reproduce the above copyright
 *    notice, this list of conditions and the following disclaimer in
 *    the documentation and/or other materials provided with the
 *    distribution.
 * 3. Neither the name IMProject nor the names of its contributors may be
 *    used to endorse or promote products derived from this software
 *    without specific prior written permission.
 *
 * THIS SOFTWARE IS PROVIDED BY THE COPYRIGHT HOLDERS AND CONTRIBUTORS
 * ""AS IS"" AND ANY EXPRESS OR IMPLIED WARRANTIES, INCLUDING, BUT NOT
 * LIMITED TO, THE IMPLIED WARRANTIES OF MERCHANTABILITY AND FITNESS
 * FOR A PARTICULAR PURPOSE ARE DISCLAIMED. IN NO EVENT SHALL THE
 * COPYRIGHT OWNER OR CONTRIBUTORS BE LIABLE FOR ANY DIRECT, INDIRECT,
 * INCIDENTAL, SPECIAL, EXEMPLARY, OR CONSEQUENTIAL DAMAGES (INCLUDING,
 * BUT NOT LIMITED TO, PROCUREMENT OF SUBSTITUTE GOODS OR SERVICES; LOSS
 * OF USE, DATA, OR PROFITS; OR BUSINESS INTERRUPTION) HOWEVER CAUSED
 * AND ON ANY THEORY OF LIABILITY, WHETHER IN CONTRACT, STRICT
 * LIABILITY, OR TORT (INCLUDING NEGLIGENCE OR OTHERWISE) ARISING IN
 * ANY WAY OUT OF THE USE OF THIS SOFTWARE, EVEN IF ADVISED OF THE
 * POSSIBILITY OF SUCH DAMAGE.
 *
 ****************************************************************************/

#ifndef UTILITY_CRC8_SAE_J1850_ZERO_H_
#define UTILITY_CRC8_SAE_J1850_ZERO_H_

#include ""typedefs.h""

/**
 * @brief Calculates the CRC-8 checksum using the SAE J1850_ZERO polynomial (0x1D).
 *
 * This function calculates the CRC-8 checksum of the given data using the SAE J1850_ZERO
 * polynomial (0x1D). The calculation is performed using a lookup table for
 * efficiency.
 *
 * @param[in] crc_data_ptr A pointer to the block of data to calculate the checksum for.
 * @param[in] crc_length The length of the data block in bytes.
 * @param[in] last_crc_ptr Pointer to the last CRC value for data chunks. Shall be set to NULL_PTR if it is the first or only operation.
 *
 * @return The calculated CRC-8 checksum.
 */
uint8_t Crc8_saeJ1850Zero(
    const uint8_t* crc_data_ptr,
    uint32_t crc_length,
    const uint8_t* last_crc_ptr
);

#endif /* UTILITY_CRC8_SAE_J1850_ZERO_H_ */
".

(** Inc/crc/crc8_variants/crc8_wcdma.h *)
Definition text_crc8_wcdma_h : string :=
"/****************************************************************************
 *
 *   Copyright (c) 2023 IMProject Development Team. All rights reserved.
 *   Authors: Igor Misic <igy1000mb@gmail.com>
 *
 * Redistribution and use in source and binary forms, with or without
 * modification, are permitted provided that the following conditions
 * are met:
 *
 * 1. Redistributions of source code must retain the above copyright
 *    notice, this list of conditions and the following disclaimer.
 * 2. Redistributions in binary form must reproduce the above copyright
 *    notice, this list of conditions and the following disclaimer in
 *    the documentation and/or other materials provided with the
 *    distribution.
 * 3. Neither the name IMProject nor the names of its contributors may be
 *    used to endorse or promote products derived from this software
 *    without specific prior written permission.
 *
 * THIS SOFTWARE IS PROVIDED BY THE COPYRIGHT HOLDERS AND CONTRIBUTORS
 * ""AS IS"" AND ANY EXPRESS OR IMPLIED WARRANTIES, INCLUDING, BUT NOT
 * LIMITED TO, THE IMPLIED WARRANTIES OF MERCHANTABILITY AND FITNESS
 * FOR A PARTICULAR PURPOSE ARE DISCLAIMED. IN NO EVENT SHALL THE
 * COPYRIGHT OWNER OR CONTRIBUTORS BE LIABLE FOR ANY DIRECT, INDIRECT,
 * INCIDENTAL, SPECIAL, EXEMPLARY, OR CONSEQUENTIAL DAMAGES (INCLUDING,
 * BUT NOT LIMITED TO, PROCUREMENT OF SUBSTITUTE GOODS OR SERVICES; LOSS
 * OF USE, DATA, OR PROFITS; OR BUSINESS INTERRUPTION) HOWEVER CAUSED
 * AND ON ANY THEORY OF LIABILITY, WHETHER IN CONTRACT, STRICT
 * LIABILITY, OR TORT (INCLUDING NEGLIGENCE OR OTHERWISE) ARISING IN
 * ANY WAY OUT OF THE USE OF THIS SOFTWARE, EVEN IF ADVISED OF THE
 * POSSIBILITY OF SUCH DAMAGE.
 *
 ****************************************************************************/

#ifndef UTILITY_CRC8_WCDMA_H_
#define UTILITY_CRC8_WCDMA_H_

#include ""typedefs.h""

/**
 * @brief Calculates the CRC-8 checksum using the WCDMA polynomial (0x9B).
 *
 * This function calculates the CRC-8 checksum of the given data using the WCDMA
 * polynomial (0x9B). The calculation is performed using a lookup table for
 * efficiency.
 *
 * @param[in] crc_data_ptr A pointer to the block of data to calculate the checksum for.
 * @param[in] crc_length The length of the data block in bytes.
 * @param[in] final_crc Set the flag to 'true' if it is the last or only operation, and 'false' for data chunks.
 * @param[in] last_crc_ptr Pointer to the last CRC value for data chunks. Shall be set to NULL_PTR if it is the first or only operation.
 *
 * @return The calculated CRC-8 checksum.
 */
uint8_t Crc8_wcdma(
    const uint8_t* crc_data_ptr,
    uint32_t crc_length,
    bool final_crc,
    const uint8_t* last_crc_ptr
);

#endif /* UTILITY_CRC8_WCDMA_H_ */
".

(** Inc/crc/crc16_variants/crc16_a.h *)
Definition text_crc16_a_h : string :=
"/****************************************************************************
 *
 *   Copyright (c) 2023 IMProject Development Team. All rights reserved.
 *   Authors: Igor Misic <igy1000mb@gmail.com>
 *
 * Redistribution and use in source and binary forms, with or without
 * modification, are permitted provided that the following conditions
 * are met:
 *
 * 1. Redistributions of source code must retain the above copyright
 *    notice, this list of conditions and the following disclaimer.
 * 2. Redistributions in binary form must reproduce the above copyright
 *    notice, this list of conditions and the following disclaimer in
 *    the documentation and/or other materials provided with the
 *    distribution.
 * 3. Neither the name IMProject nor the names of its contributors may be
 *    used to endorse or promote products derived from this software
 *    without specific prior written permission.
 *
 * THIS SOFTWARE IS PROVIDED BY THE COPYRIGHT HOLDERS AND CONTRIBUTORS
 * ""AS IS"" AND ANY EXPRESS OR IMPLIED WARRANTIES, INCLUDING, BUT NOT
 * LIMITED TO, THE IMPLIED WARRANTIES OF MERCHANTABILITY AND FITNESS
 * FOR A PARTICULAR PURPOSE ARE DISCLAIMED. IN NO EVENT SHALL THE
 * COPYRIGHT OWNER OR CONTRIBUTORS BE LIABLE FOR ANY DIRECT, INDIRECT,
 * INCIDENTAL, SPECIAL, EXEMPLARY, OR CONSEQUENTIAL DAMAGES (INCLUDING,
 * BUT NOT LIMITED TO, PROCUREMENT OF SUBSTITUTE GOODS OR SERVICES; LOSS
 * OF USE, DATA, OR PROFITS; OR BUSINESS INTERRUPTION) HOWEVER CAUSED
 * AND ON ANY THEORY OF LIABILITY, WHETHER IN CONTRACT, STRICT
 * LIABILITY, OR TORT (INCLUDING NEGLIGENCE OR OTHERWISE) ARISING IN
 * ANY WAY OUT OF THE USE OF THIS SOFTWARE, EVEN IF ADVISED OF THE
 * POSSIBILITY OF SUCH DAMAGE.
 *
 ****************************************************************************/

#ifndef UTILITY_CRC16_A_H_
#define UTILITY_CRC16_A_H_

#include ""typedefs.h""

/**
 * @brief Calculates an 16-bit CRC checksum for a block of data using the A polynomial (0x1021).
 *
 * This function calculates an 16-bit CRC checksum for the given block of data
 * using polynomial 0x1021. The 'crc_data_ptr' parameter should be
 * a pointer to the block of data to calculate the checksum for. The 'crc_length'
 * parameter is the length of the data block in bytes.
 * The calculation is performed using a lookup table for efficiency.
 *
 * @param[in] crc_data_ptr A pointer to the data block to calculate the checksum for.
 * @param[in] crc_length The length of the data block in bytes.
 * @param[in] final_crc Set the flag to 'true' if it is the last or only operation, and 'false' for data chunks.
 * @param[in] last_crc_ptr Pointer to the last CRC value for data chunks. Shall be set to NULL_PTR if it is the first or only operation.
 *
 * @return The calculated CRC checksum.
 */
uint16_t Crc16_a(
    const uint8_t* crc_data_ptr,
    uint32_t crc_length,
    bool final_crc,
    const uint16_t* last_crc_ptr
);

#endif /* UTILITY_CRC16_A_H_ */
".

(** Inc/crc/crc16_variants/crc16_arc.h *)
Definition text_crc16_arc_h : string :=
"/****************************************************************************
 *
 *   Copyright (c) 2023 IMProject Development Team. All rights reserved.
 *   Authors: Igor Misic <igy1000mb@gmail.com>
 *
 * Redistribution and use in source and binary forms, with or without
 * modification, are permitted provided that the following conditions
 * are met:
 *
 * 1. Redistributions of source code must retain the above copyright
 *    notice, this list of conditions and the following disclaimer.
 * 2. Redistributions in binary form must reproduce the above copyright
 *    notice, this list of conditions and the following disclaimer in
 *    the documentation and/or other materials provided with the
 *    distribution.
 * 3. Neither the name IMProject nor the names of its contributors may be
 *    used to endorse or promote products derived from this software
 *    without specific prior written permission.
 *
 * THIS SOFTWARE IS PROVIDED BY THE COPYRIGHT HOLDERS AND CONTRIBUTORS
 * ""AS IS"" AND ANY EXPRESS OR IMPLIED WARRANTIES, INCLUDING, BUT NOT
 * LIMITED TO, THE IMPLIED WARRANTIES OF MERCHANTABILITY AND FITNESS
 * FOR A PARTICULAR PURPOSE ARE DISCLAIMED. IN NO EVENT SHALL THE
 * COPYRIGHT OWNER OR CONTRIBUTORS BE LIABLE FOR ANY DIRECT, INDIRECT,
 * INCIDENTAL, SPECIAL, EXEMPLARY, OR CONSEQUENTIAL DAMAGES (INCLUDING,
 * BUT NOT LIMITED TO, PROCUREMENT OF SUBSTITUTE GOODS OR SERVICES; LOSS
 * OF USE, DATA, OR PROFITS; OR BUSINESS INTERRUPTION) HOWEVER CAUSED
 * AND ON ANY THEORY OF LIABILITY, WHETHER IN CONTRACT, STRICT
 * LIABILITY, OR TORT (INCLUDING NEGLIGENCE OR OTHERWISE) ARISING IN
 * ANY WAY OUT OF THE USE OF THIS SOFTWARE, EVEN IF ADVISED OF THE
 * POSSIBILITY OF SUCH DAMAGE.
 *
 ****************************************************************************/

#ifndef UTILITY_CRC16_ARC_H_
#define UTILITY_CRC16_ARC_H_

#include ""typedefs.h""

/**
 * @brief Calculates an 16-bit CRC checksum for a block of data using the ARC polynomial (0x8005).
 *
 * This function calculates an 16-bit CRC checksum for the given block of data
 * using polynomial 0x8005. The 'crc_data_ptr' parameter should be
 * a pointer to the block of data to calculate the checksum for. The 'crc_length'
 * parameter is the length of the data block in bytes.
 * The calculation is performed using a lookup table for efficiency.
 *
 * @param[in] crc_data_ptr A pointer to the data block to calculate the checksum for.
 * @param[in] crc_length The length of the data block in bytes.
 * @param[in] final_crc Set the flag to 'true' if it is the last or only operation, and 'false' for data chunks.
 * @param[in] last_crc_ptr Pointer to the last CRC value for data chunks. Shall be set to NULL_PTR if it is the first or only operation.
 *
 * @return The calculated CRC checksum.
 */
uint16_t Crc16_arc(
    const uint8_t* crc_data_ptr,
    uint32_t crc_length,
    bool final_crc,
    const uint16_t* last_crc_ptr
);

#endif /* UTILITY_CRC16_ARC_H_ */
".

(** Inc/crc/crc16_variants/crc16_aug_ccit.h *)
Definition text_crc16_aug_ccit_h : string :=
"/****************************************************************************
 *
 *   Copyright (c) 2023 IMProject Development Team. All rights reserved.
 *   Authors: Igor Misic <igy1000mb@gmail.com>
 *
 * Redistribution and use in source and binary forms, with or without
 * modification, are permitted provided that the following conditions
 * are met:
 *
 * 1. Redistributions of source code must retain the above copyright
 *    notice, this list of conditions and the following disclaimer.
 * 2. Redistributions in binary form must reproduce the above copyright
 *    notice, this list of conditions and the following disclaimer in
 *    the documentation and/or other materials provided with the
 *    distribution.
 * 3. Neither the name IMProject nor the names of its contributors may be
 *    used to endorse or promote products derived from this software
 *    without specific prior written permission.
 *
 * THIS SOFTWARE IS PROVIDED BY THE COPYRIGHT HOLDERS AND CONTRIBUTORS
 * ""AS IS"" AND ANY EXPRESS OR IMPLIED WARRANTIES, INCLUDING, BUT NOT
 * LIMITED TO, THE IMPLIED WARRANTIES OF MERCHANTABILITY AND FITNESS
 * FOR A PARTICULAR PURPOSE ARE DISCLAIMED. IN NO EVENT SHALL THE
 * COPYRIGHT OWNER OR CONTRIBUTORS BE LIABLE FOR ANY DIRECT, INDIRECT,
 * INCIDENTAL, SPECIAL, EXEMPLARY, OR CONSEQUENTIAL DAMAGES (INCLUDING,
 * BUT NOT LIMITED TO, PROCUREMENT OF SUBSTITUTE GOODS OR SERVICES; LOSS
 * OF USE, DATA, OR PROFITS; OR BUSINESS INTERRUPTION) HOWEVER CAUSED
 * AND ON ANY THEORY OF LIABILITY, WHETHER IN CONTRACT, STRICT
 * LIABILITY, OR TORT (INCLUDING NEGLIGENCE OR OTHERWISE) ARISING IN
 * ANY WAY OUT OF THE USE OF THIS SOFTWARE, EVEN IF ADVISED OF THE
 * POSSIBILITY OF SUCH DAMAGE.
 *
 ****************************************************************************/

#ifndef UTILITY_CRC16_AUG_CCIT_H_
#define UTILITY_CRC16_AUG_CCIT_H_

#include ""typedefs.h""

/**
 * @brief Calculates an 16-bit CRC checksum for a block of data using the AUG CCIT polynomial (0x1021).
 *
 * This function calculates an 16-bit CRC checksum for the given block of data
 * using polynomial 0x1021. The 'crc_data_ptr' parameter should be
 * a pointer to the block of data to calculate the checksum for. The 'crc_length'
 * parameter is the length of the data block in bytes.
 * The calculation is performed using a lookup table for efficiency.
 *
 * @param[in] crc_data_ptr A pointer to the data block to calculate the checksum for.
 * @param[in] crc_length The length of the data block in bytes.
 * @param[in] last_crc_ptr Pointer to the last CRC value for data chunks. Shall be set to NULL_PTR if it is the first or only operation.
 *
 * @return The calculated CRC checksum.
 */
uint16_t Crc16_augCcit(
    const uint8_t* crc_data_ptr,
    uint32_t crc_length,
    const uint16_t* last_crc_ptr
);

#endif /* UTILITY_CRC16_AUG_CCIT_H_ */
".

(** Inc/crc/crc16_variants/crc16_buypass.h *)
Definition text_crc16_buypass_h : string :=
"/****************************************************************************
 *
 *   Copyright (c) 2023 IMProject Development Team. All rights reserved.
 *   Authors: Igor Misic <igy1000mb@gmail.com>
 *
 * Redistribution and use in source and binary forms, with or without
 * modification, are permitted provided that the following conditions
 * are met:
 *
 * 1. Redistributions of source code must retain the above copyright
 *    notice, this list of conditions and the following disclaimer.
 * 2. Redistributions in binary form must reproduce the above copyright
 *    notice, this list of conditions and the following disclaimer in
 *    the documentation and/or other materials provided with the
 *    distribution.
 * 3. Neither the name IMProject nor the names of its contributors may be
 *    used to endorse or promote products derived from this software
 *    without specific prior written permission.
 *
 * THIS SOFTWARE IS PROVIDED BY THE COPYRIGHT HOLDERS AND CONTRIBUTORS
 * ""AS IS"" AND ANY EXPRESS OR IMPLIED WARRANTIES, INCLUDING, BUT NOT
 * LIMITED TO, THE IMPLIED WARRANTIES OF MERCHANTABILITY AND FITNESS
 * FOR A PARTICULAR PURPOSE ARE DISCLAIMED. IN NO EVENT SHALL THE
 * COPYRIGHT OWNER OR CONTRIBUTORS BE LIABLE FOR ANY DIRECT, INDIRECT,
 * INCIDENTAL, SPECIAL, EXEMPLARY, OR CONSEQUENTIAL DAMAGES (INCLUDING,
 * BUT NOT LIMITED TO, PROCUREMENT OF SUBSTITUTE GOODS OR SERVICES; LOSS
 * OF USE, DATA, OR PROFITS; OR BUSINESS INTERRUPTION) HOWEVER CAUSED
 * AND ON ANY THEORY OF LIABILITY, WHETHER IN CONTRACT, STRICT
 * LIABILITY, OR TORT (INCLUDING NEGLIGENCE OR OTHERWISE) ARISING IN
 * ANY WAY OUT OF THE USE OF THIS SOFTWARE, EVEN IF ADVISED OF THE
 * POSSIBILITY OF SUCH DAMAGE.
 *
 ****************************************************************************/

#ifndef UTILITY_CRC16_BUYPASS_H_
#define UTILITY_CRC16_BUYPASS_H_

#include ""typedefs.h""

/**
 * @brief Calculates an 16-bit CRC checksum for a block of data using the BUYPASS polynomial (0x8005).
 *
 * This function calculates an 16-bit CRC checksum for the given block of data
 * using polynomial 0x8005. The 'crc_data_ptr' parameter should be
 * a pointer to the block of data to calculate the checksum for. The 'crc_length'
 * parameter is the length of the data block in bytes.
 * The calculation is performed using a lookup table for efficiency.
 *
 * @param[in] crc_data_ptr A pointer to the data block to calculate the checksum for.
 * @param[in] crc_length The length of the data block in bytes.
 * @param[in] last_crc_ptr Pointer to the last CRC value for data chunks. Shall be set to NULL_PTR if it is the first or only operation.
 *
 * @return The calculated CRC checksum.
 */
uint16_t Crc16_buypass(
    const uint8_t* crc_data_ptr,
    uint32_t crc_length,
    const uint16_t* last_crc_ptr
);

#endif /* UTILITY_CRC16_BUYPASS_H_ */
".

(** Inc/crc/crc16_variants/crc16_ccit_false.h *)
Definition text_crc16_ccit_false_h : string :=
"/****************************************************************************
 *
 *   Copyright (c) 2023 IMProject Development Team. All rights reserved.
 *   Authors: Igor Misic <igy1000mb@gmail.com>
 *
 * Redistribution and use in source and binary forms, with or without
 * modification, are permitted provided that the following conditions
 * are met:
 *
 * 1. Redistributions of source code must retain the above copyright
 *    notice, this list of conditions and the following disclaimer.
 * 2. Redistributions in binary form must reproduce the above copyright
 *    notice, this list of conditions and the following disclaimer in
 *    the documentation and/or other materials provided with the
 *    distribution.
 * 3. Neither the name IMProject nor the names of its contributors may be
 *    used to endorse or promote products derived from this software
 *    without specific prior written permission.
 *
 * THIS SOFTWARE IS PROVIDED BY THE COPYRIGHT HOLDERS AND CONTRIBUTORS
 * ""AS IS"" AND ANY EXPRESS OR IMPLIED WARRANTIES, INCLUDING, BUT NOT
 * LIMITED TO, THE IMPLIED WARRANTIES OF MERCHANTABILITY AND FITNESS
 * FOR A PARTICULAR PURPOSE ARE DISCLAIMED. IN NO EVENT SHALL THE
 * COPYRIGHT OWNER OR CONTRIBUTORS BE LIABLE FOR ANY DIRECT, INDIRECT,
 * INCIDENTAL, SPECIAL, EXEMPLARY, OR CONSEQUENTIAL DAMAGES (INCLUDING,
 * BUT NOT LIMITED TO, PROCUREMENT OF SUBSTITUTE GOODS OR SERVICES; LOSS
 * OF USE, DATA, OR PROFITS; OR BUSINESS INTERRUPTION) HOWEVER CAUSED
 * AND ON ANY THEORY OF LIABILITY, WHETHER IN CONTRACT, STRICT
 * LIABILITY, OR TORT (INCLUDING NEGLIGENCE OR OTHERWISE) ARISING IN
 * ANY WAY OUT OF THE USE OF THIS SOFTWARE, EVEN IF ADVISED OF THE
 * POSSIBILITY OF SUCH DAMAGE.
 *
 ****************************************************************************/

#ifndef UTILITY_CRC16_CCIT_FALSE_H_
#define UTILITY_CRC16_CCIT_FALSE_H_

#include ""typedefs.h""

/**
 * @brief Calculates an 16-bit CRC checksum for a block of data using the CCIT FALSE polynomial (0x1021).
 *
 * This function calculates an 16-bit CRC checksum for the given block of data
 * using polynomial 0x1021. The 'crc_data_ptr' parameter should be
 * a pointer to the block of data to calculate the checksum for. The 'crc_length'
 * parameter is the length of the data block in bytes.
 * The calculation is performed using a lookup table for efficiency.
 *
 * @param[in] crc_data_ptr A pointer to the data block to calculate the checksum for.
 * @param[in] crc_length The length of the data block in bytes.
 * @param[in] last_crc_ptr Pointer to the last CRC value for data chunks. Shall be set to NULL_PTR if it is the first or only operation.
 *
 * @return The calculated CRC checksum.
 */
uint16_t Crc16_ccitFalse(
    const uint8_t* crc_data_ptr,
    uint32_t crc_length,
    const uint16_t* last_crc_ptr
);

#endif /* UTILITY_CRC16_CCIT_FALSE_H_ */
".

(** Inc/crc/crc16_variants/crc16_ccit_zero.h *)
Definition text_crc16_ccit_zero_h : string :=
"/****************************************************************************
 *
 *   Copyright (c) 2023 IMProject Development Team. All rights reserved.
 *   Authors: Igor Misic <igy1000mb@gmail.com>
 *
 * Redistribution and use in source and binary forms, with or without
 * modification, are permitted provided that the following conditions
 * are met:
 *
 * 1. Redistributions of source code must retain the above copyright
 *    notice, this list of conditions and the following disclaimer.
 * 2. Redistributions in binary form must reproduce the above copyright
 *    notice, this list of conditions and the following disclaimer in
 *    the documentation and/or other materials provided with the
 *    distribution.
 * 3. Neither the name IMProject nor the names of its contributors may be
 *    used to endorse or promote products derived from this software
 *    without specific prior written permission.
 *
 * THIS SOFTWARE IS PROVIDED BY THE COPYRIGHT HOLDERS AND CONTRIBUTORS
 * ""AS IS"" AND ANY EXPRESS OR IMPLIED WARRANTIES, INCLUDING, BUT NOT
 * LIMITED TO, THE IMPLIED WARRANTIES OF MERCHANTABILITY AND FITNESS
 * FOR A PARTICULAR PURPOSE ARE DISCLAIMED. IN NO EVENT SHALL THE
 * COPYRIGHT OWNER OR CONTRIBUTORS BE LIABLE FOR ANY DIRECT, INDIRECT,
 * INCIDENTAL, SPECIAL, EXEMPLARY, OR CONSEQUENTIAL DAMAGES (INCLUDING,
 * BUT NOT LIMITED TO, PROCUREMENT OF SUBSTITUTE GOODS OR SERVICES; LOSS
 * OF USE, DATA, OR PROFITS; OR BUSINESS INTERRUPTION) HOWEVER CAUSED
 * AND ON ANY THEORY OF LIABILITY, WHETHER IN CONTRACT, STRICT
 * LIABILITY, OR TORT (INCLUDING NEGLIGENCE OR OTHERWISE) ARISING IN
 * ANY WAY OUT OF THE USE OF THIS SOFTWARE, EVEN IF ADVISED OF THE
 * POSSIBILITY OF SUCH DAMAGE.
 *
 ****************************************************************************/

#ifndef UTILITY_CRC16_CCIT_ZERO_H_
#define UTILITY_CRC16_CCIT_ZERO_H_

#include ""typedefs.h""

/**
 * @brief Calculates an 16-bit CRC checksum for a block of data using the CCIT ZERO
 * (also know as XMODEM) polynomial (0x1021).
 *
 * This function calculates an 16-bit CRC checksum for the given block of data
 * using polynomial 0x1021. The 'crc_data_ptr' parameter should be
 * a pointer to the block of data to calculate the checksum for. The 'crc_length'
 * parameter is the length of the data block in bytes.
 * The calculation is performed using a lookup table for efficiency.
 *
 * @param[in] crc_data_ptr A pointer to the data block to calculate the checksum for.
 * @param[in] crc_length The length of the data block in bytes.
 * @param[in] last_crc_ptr Pointer to the last CRC value for data chunks. Shall be set to NULL_PTR if it is the first or only operation.
 *
 * @return The calculated CRC checksum.
 */
uint16_t Crc16_ccitZero(
    const uint8_t* crc_data_ptr,
    uint32_t crc_length,
    const uint16_t* last_crc_ptr
);

#endif /* UTILITY_CRC16_CCIT_ZERO_H_ */
".

(** Inc/crc/crc16_variants/crc16_cdma2000.h *)
Definition text_crc16_cdma2000_h : string :=
"/****************************************************************************
 *
 *   Copyright (c) 2023 IMProject Development Team. All rights reserved.
 *   Authors: Igor Misic <igy1000mb@gmail.com>
 *
 * Redistribution and use in source and binary forms, with or without
 * modification, are permitted provided that the following conditions
 * are met:
 *
 * 1. Redistributions of source code must retain the above copyright
 *    notice, this list of conditions and the following disclaimer.
 * 2. Redistributions in binary form must reproduce the above copyright
 *    notice, this list of conditions and the following disclaimer in
 *    the documentation and/or other materials provided with the
 *    distribution.
 * 3. Neither the name IMProject nor the names of its contributors may be
 *    used to endorse or promote products derived from this software
 *    without specific prior written permission.
 *
 * THIS SOFTWARE IS PROVIDED BY THE COPYRIGHT HOLDERS AND CONTRIBUTORS
 * ""AS IS"" AND ANY EXPRESS OR IMPLIED WARRANTIES, INCLUDING, BUT NOT
 * LIMITED TO, THE IMPLIED WARRANTIES OF MERCHANTABILITY AND FITNESS
 * FOR A PARTICULAR PURPOSE ARE DISCLAIMED. IN NO EVENT SHALL THE
 * COPYRIGHT OWNER OR CONTRIBUTORS BE LIABLE FOR ANY DIRECT, INDIRECT,
 * INCIDENTAL, SPECIAL, EXEMPLARY, OR CONSEQUENTIAL DAMAGES (INCLUDING,
 * BUT NOT LIMITED TO, PROCUREMENT OF SUBSTITUTE GOODS OR SERVICES; LOSS
 * OF USE, DATA, OR PROFITS; OR BUSINESS INTERRUPTION) HOWEVER CAUSED
 * AND ON ANY THEORY OF LIABILITY, WHETHER IN CONTRACT, STRICT
 * LIABILITY, OR TORT (INCLUDING NEGLIGENCE OR OTHERWISE) ARISING IN
 * ANY WAY OUT OF THE USE OF THIS SOFTWARE, EVEN IF ADVISED OF THE
 * POSSIBILITY OF SUCH DAMAGE.
 *
 ****************************************************************************/

#ifndef UTILITY_CRC16_CDMA2000_H_
#define UTILITY_CRC16_CDMA2000_H_

#include ""typedefs.h""

/**
 * @brief Calculates an 16-bit CRC checksum for a block of data using the CDMA2000 polynomial (0xC867).
 *
 * This function calculates an 16-bit CRC checksum for the given block of data
 * using polynomial 0xC867. The 'crc_data_ptr' parameter should be
 * a pointer to the block of data to calculate the checksum for. The 'crc_length'
 * parameter is the length of the data block in bytes.
 * The calculation is performed using a lookup table for efficiency.
 *
 * @param[in] crc_data_ptr A pointer to the data block to calculate the checksum for.
 * @param[in] crc_length The length of the data block in bytes.
 * @param[in] last_crc_ptr Pointer to the last CRC value for data chunks. Shall be set to NULL_PTR if it is the first or only operation.
 *
 * @return The calculated CRC checksum.
 */
uint16_t Crc16_cdma2000(
    const uint8_t* crc_data_ptr,
    uint32_t crc_length,
    const uint16_t* last_crc_ptr
);

#endif /* UTILITY_CRC16_CDMA2000_H_ */
".

(** Inc/crc/crc16_variants/crc16_dds110.h *)
Definition text_crc16_dds110_h : string :=
"/****************************************************************************
 *
 *   Copyright (c) 2023 IMProject Development Team. All rights reserved.
 *   Authors: Igor Misic <igy1000mb@gmail.com>
 *
 * Redistribution and use in source and binary forms, with or without
 * modification, are permitted provided that the following conditions
 * are met:
 *
 * 1. Redistributions of source code must retain the above copyright
 *    notice, this list of conditions and the following disclaimer.
 * 2. Redistributions in binary form must reproduce the above copyright
 *    notice, this list of conditions and the following disclaimer in
 *    the documentation and/or other materials provided with the
 *    distribution.
 * 3. Neither the name IMProject nor the names of its contributors may be
 *    used to endorse or promote products derived from this software
 *    without specific prior written permission.
 *
 * THIS SOFTWARE IS PROVIDED BY THE COPYRIGHT HOLDERS AND CONTRIBUTORS
 * ""AS IS"" AND ANY EXPRESS OR IMPLIED WARRANTIES, INCLUDING, BUT NOT
 * LIMITED TO, THE IMPLIED WARRANTIES OF MERCHANTABILITY AND FITNESS
 * FOR A PARTICULAR PURPOSE ARE DISCLAIMED. IN NO EVENT SHALL THE
 * COPYRIGHT OWNER OR CONTRIBUTORS BE LIABLE FOR ANY DIRECT, INDIRECT,
 * INCIDENTAL, SPECIAL, EXEMPLARY, OR CONSEQUENTIAL DAMAGES (INCLUDING,
 * BUT NOT LIMITED TO, PROCUREMENT OF SUBSTITUTE GOODS OR SERVICES; LOSS
 * OF USE, DATA, OR PROFITS; OR BUSINESS INTERRUPTION) HOWEVER CAUSED
 * AND ON ANY THEORY OF LIABILITY, WHETHER IN CONTRACT, STRICT
 * LIABILITY, OR TORT (INCLUDING NEGLIGENCE OR OTHERWISE) ARISING IN
 * ANY WAY OUT OF THE USE OF THIS SOFTWARE, EVEN IF ADVISED OF THE
 * POSSIBILITY OF SUCH DAMAGE.
 *
 ****************************************************************************/

#ifndef UTILITY_CRC16_DDS110_H_
#define UTILITY_CRC16_DDS110_H_

#include ""typedefs.h""

/**
 * @brief Calculates an 16-bit CRC checksum for a block of data using the DDS110 polynomial (0x8005).
 *
 * This function calculates an 16-bit CRC checksum for the given block of data
 * using polynomial 0x8005. The 'crc_data_ptr' parameter should be
 * a pointer to the block of data to calculate the checksum for. The 'crc_length'
 * parameter is the length of the data block in bytes.
 * The calculation is performed using a lookup table for efficiency.
 *
 * @param[in] crc_data_ptr A pointer to the data block to calculate the checksum for.
 * @param[in] crc_length The length of the data block in bytes.
 * @param[in] last_crc_ptr Pointer to the last CRC value for data chunks. Shall be set to NULL_PTR if it is the first or only operation.
 *
 * @return The calculated CRC checksum.
 */
uint16_t Crc16_dds110(
    const uint8_t* crc_data_ptr,
    uint32_t crc_length,
    const uint16_t* last_crc_ptr
);

#endif /* UTILITY_CRC16_DDS110_H_ */
".

(** Inc/crc/crc16_variants/crc16_dect_r.h *)
Definition text_crc16_dect_r_h : string :=
"/****************************************************************************
 *
 *   Copyright (c) 2023 IMProject Development Team. All rights reserved.
 *   Authors: Igor Misic <igy1000mb@gmail.com>
 *
 * Redistribution and use in source and binary forms, with or without
 * modification, are permitted provided that the following conditions
 * are met:
 *
 * 1. Redistributions of source code must retain the above copyright
 *    notice, this list of conditions and the following disclaimer.
 * 2. Redistributions in binary form must reproduce the above copyright
 *    notice, this list of conditions and the following disclaimer in
 *    the documentation and/or other materials provided with the
 *    distribution.
 * 3. Neither the name IMProject nor the names of its contributors may be
 *    used to endorse or promote products derived from this software
 *    without specific prior written permission.
 *
 * THIS SOFTWARE IS PROVIDED BY THE COPYRIGHT HOLDERS AND CONTRIBUTORS
 * ""AS IS"" AND ANY EXPRESS OR IMPLIED WARRANTIES, INCLUDING, BUT NOT
 * LIMITED TO, THE IMPLIED WARRANTIES OF MERCHANTABILITY AND FITNESS
 * FOR A PARTICULAR PURPOSE ARE DISCLAIMED. IN NO EVENT SHALL THE
 * COPYRIGHT OWNER OR CONTRIBUTORS BE LIABLE FOR ANY DIRECT, INDIRECT,
 * INCIDENTAL, SPECIAL, EXEMPLARY, OR CONSEQUENTIAL DAMAGES (INCLUDING,
 * BUT NOT LIMITED TO, PROCUREMENT OF SUBSTITUTE GOODS OR SERVICES; LOSS
 * OF USE, DATA, OR PROFITS; OR BUSINESS INTERRUPTION) HOWEVER CAUSED
 * AND ON ANY THEORY OF LIABILITY, WHETHER IN CONTRACT, STRICT
 * LIABILITY, OR TORT (INCLUDING NEGLIGENCE OR OTHERWISE) ARISING IN
 * ANY WAY OUT OF THE USE OF THIS SOFTWARE, EVEN IF ADVISED OF THE
 * POSSIBILITY OF SUCH DAMAGE.
 *
 ****************************************************************************/

#ifndef UTILITY_CRC16_DECT_R_H_
#define UTILITY_CRC16_DECT_R_H_

#include ""typedefs.h""

/**
 * @brief Calculates an 16-bit CRC checksum for a block of data using the DECT R polynomial (0x0589).
 *
 * This function calculates an 16-bit CRC checksum for the given block of data
 * using polynomial 0x0589. The 'crc_data_ptr' parameter should be
 * a pointer to the block of data to calculate the checksum for. The 'crc_length'
 * parameter is the length of the data block in bytes.
 * The calculation is performed using a lookup table for efficiency.
 *
 * @param[in] crc_data_ptr A pointer to the data block to calculate the checksum for.
 * @param[in] crc_length The length of the data block in bytes.
 * @param[in] final_crc Set the flag to 'true' if it is the last or only operation, and 'false' for data chunks.
 * @param[in] last_crc_ptr Pointer to the last CRC value for data chunks. Shall be set to NULL_PTR if it is the first or only operation.
 *
 * @return The calculated CRC checksum.
 */
uint16_t Crc16_dectR(
    const uint8_t* crc_data_ptr,
    uint32_t crc_length,
    bool final_crc,
    const uint16_t* last_crc_ptr
);

#endif /* UTILITY_CRC16_DECT_R_H_ */
".

(** Inc/crc/crc16_variants/crc16_dect_x.h *)
Definition text_crc16_dect_x_h : string :=
"/****************************************************************************
 *
 *   Copyright (c) 2023 IMProject Development Team. All rights reserved.
 *   Authors: Igor Misic <igy1000mb@gmail.com>
 *
 * Redistribution and use in source and binary forms, with or without
 * modification, are permitted provided that the following conditions
 * are met:
 *
 * 1. Redistributions of source code must retain the above copyright
 *    notice, this list of conditions and the following disclaimer.
 * 2. Redistributions in binary form must reproduce the above copyright
 *    notice, this list of conditions and the following disclaimer in
 *    the documentation and/or other materials provided with the
 *    distribution.
 * 3. Neither the name IMProject nor the names of its contributors may be
 *    used to endorse or promote products derived from this software
 *    without specific prior written permission.
 *
 * THIS SOFTWARE IS PROVIDED BY THE COPYRIGHT HOLDERS AND CONTRIBUTORS
 * ""AS IS"" AND ANY EXPRESS OR IMPLIED WARRANTIES, INCLUDING, BUT NOT
 * LIMITED TO, THE IMPLIED WARRANTIES OF MERCHANTABILITY AND FITNESS
 * FOR A PARTICULAR PURPOSE ARE DISCLAIMED. IN NO EVENT SHALL THE
 * COPYRIGHT OWNER OR CONTRIBUTORS BE LIABLE FOR ANY DIRECT, INDIRECT,
 * INCIDENTAL, SPECIAL, EXEMPLARY, OR CONSEQUENTIAL DAMAGES (INCLUDING,
 * BUT NOT LIMITED TO, PROCUREMENT OF SUBSTITUTE GOODS OR SERVICES; LOSS
 * OF USE, DATA, OR PROFITS; OR BUSINESS INTERRUPTION) HOWEVER CAUSED
 * AND ON ANY THEORY OF LIABILITY, WHETHER IN CONTRACT, STRICT
 * LIABILITY, OR TORT (INCLUDING NEGLIGENCE OR OTHERWISE) ARISING IN
 * ANY WAY OUT OF THE USE OF THIS SOFTWARE, EVEN IF ADVISED OF THE
 * POSSIBILITY OF SUCH DAMAGE.
 *
 ****************************************************************************/

#ifndef UTILITY_CRC16_DECT_X_H_
#define UTILITY_CRC16_DECT_X_H_

#include ""typedefs.h""

/**
 * @brief Calculates an 16-bit CRC checksum for a block of data using the DECT X polynomial (0x0589).
 *
 * This function calculates an 16-bit CRC checksum for the given block of data
 * using polynomial 0x0589. The 'crc_data_ptr' parameter should be
 * a pointer to the block of data to calculate the checksum for. The 'crc_length'
 * parameter is the length of the data block in bytes.
 * The calculation is performed using a lookup table for efficiency.
 *
 * @param[in] crc_data_ptr A pointer to the data block to calculate the checksum for.
 * @param[in] crc_length The length of the data block in bytes.
 * @param[in] last_crc_ptr Pointer to the last CRC value for data chunks. Shall be set to NULL_PTR if it is the first or only operation.
 *
 * @return The calculated CRC checksum.
 */
uint16_t Crc16_dectX(
    const uint8_t* crc_data_ptr,
    uint32_t crc_length,
    const uint16_t* last_crc_ptr
);

#endif /* UTILITY_CRC16_DECT_X_H_ */
".

(** Inc/crc/crc16_variants/crc16_dnp.h *)
Definition text_crc16_dnp_h : string :=
"/****************************************************************************
 *
 *   Copyright (c) 2023 IMProject Development Team. All rights reserved.
 *   Authors: Igor Misic <igy1000mb@gmail.com>
 *
 * Redistribution and use in source and binary forms, with or without
 * modification, are permitted provided that the following conditions
 * are met:
 *
 * 1. Redistributions of source code must retain the above copyright
 *    notice, this list of conditions and the following disclaimer.
 * 2. Redistributions in binary form must reproduce the above copyright
 *    notice, this list of conditions and the following disclaimer in
 *    the documentation and/or other materials provided with the
 *    distribution.
 * 3. Neither the name IMProject nor the names of its contributors may be
 *    used to endorse or promote products derived from this software
 *    without specific prior written permission.
 *
 * THIS SOFTWARE IS PROVIDED BY THE COPYRIGHT HOLDERS AND CONTRIBUTORS
 * ""AS IS"" AND ANY EXPRESS OR IMPLIED WARRANTIES, INCLUDING, BUT NOT
 * LIMITED TO, THE IMPLIED WARRANTIES OF MERCHANTABILITY AND FITNESS
 * FOR A PARTICULAR PURPOSE ARE DISCLAIMED. IN NO EVENT SHALL THE
 * COPYRIGHT OWNER OR CONTRIBUTORS BE LIABLE FOR ANY DIRECT, INDIRECT,
 * INCIDENTAL, SPECIAL, EXEMPLARY, OR CONSEQUENTIAL DAMAGES (INCLUDING,
 * BUT NOT LIMITED TO, PROCUREMENT OF SUBSTITUTE GOODS OR SERVICES; LOSS
 * OF USE, DATA, OR PROFITS; OR BUSINESS INTERRUPTION) HOWEVER CAUSED
 * AND ON ANY THEORY OF LIABILITY, WHETHER IN CONTRACT, STRICT
 * LIABILITY, OR TORT (INCLUDING NEGLIGENCE OR OTHERWISE) ARISING IN
 * ANY WAY OUT OF THE USE OF THIS SOFTWARE, EVEN IF ADVISED OF THE
 * POSSIBILITY OF SUCH DAMAGE.
 *
 ****************************************************************************/

#ifndef UTILITY_CRC16_DNP_H_
#define UTILITY_CRC16_DNP_H_

#include ""typedefs.h""

/**
 * @brief Calculates an 16-bit CRC checksum for a block of data using the DNP polynomial (0x3D65).
 *
 * This function calculates an 16-bit CRC checksum for the given block of data
 * using polynomial 0x3D65. The 'crc_data_ptr' parameter should be
 * a pointer to the block of data to calculate the checksum for. The 'crc_length'
 * parameter is the length of the data block in bytes.
 * The calculation is performed using a lookup table for efficiency.
 *
 * @param[in] crc_data_ptr A pointer to the data block to calculate the checksum for.
 * @param[in] crc_length The length of the data block in bytes.
 * @param[in] final_crc Set the flag to 'true' if it is the last or only operation, and 'false' for data chunks.
 * @param[in] last_crc_ptr Pointer to the last CRC value for data chunks. Shall be set to NULL_PTR if it is the first or only operation.
 *
 * @return The calculated CRC checksum.
 */
uint16_t Crc16_dnp(
    const uint8_t* crc_data_ptr,
    uint32_t crc_length,
    bool final_crc,
    const uint16_t* last_crc_ptr
);

#endif /* UTILITY_CRC16_DNP_H_ */
".

(** Inc/crc/crc16_variants/crc16_en_13757.h *)
Definition text_crc16_en_13757_h : string :=
"/****************************************************************************
 *
 *   Copyright (c) 2023 IMProject Development Team. All rights reserved.
 *   Authors: Igor Misic <igy1000mb@gmail.com>
 *
 * Redistribution and use in source and binary forms, with or without
 * modification, are permitted provided that the following conditions
 * are met:
 *
 * 1. Redistributions of source code must retain the above copyright
 *    notice, this list of conditions and the following disclaimer.
 * 2. Redistributions in binary form must reproduce the above copyright
 *    notice, this list of conditions and the following disclaimer in
 *    the documentation and/or other materials provided with the
 *    distribution.
 * 3. Neither the name IMProject nor the names of its contributors may be
 *    used to endorse or promote products derived from this software
 *    without specific prior written permission.
 *
 * THIS SOFTWARE IS PROVIDED BY THE COPYRIGHT HOLDERS AND CONTRIBUTORS
 * ""AS IS"" AND ANY EXPRESS OR IMPLIED WARRANTIES, INCLUDING, BUT NOT
 * LIMITED TO, THE IMPLIED WARRANTIES OF MERCHANTABILITY AND FITNESS
 * FOR A PARTICULAR PURPOSE ARE DISCLAIMED. IN NO EVENT SHALL THE
 * COPYRIGHT OWNER OR CONTRIBUTORS BE LIABLE FOR ANY DIRECT, INDIRECT,
 * INCIDENTAL, SPECIAL, EXEMPLARY, OR CONSEQUENTIAL DAMAGES (INCLUDING,
 * BUT NOT LIMITED TO, PROCUREMENT OF SUBSTITUTE GOODS OR SERVICES; LOSS
 * OF USE, DATA, OR PROFITS; OR BUSINESS INTERRUPTION) HOWEVER CAUSED
 * AND ON ANY THEORY OF LIABILITY, WHETHER IN CONTRACT, STRICT
 * LIABILITY, OR TORT (INCLUDING NEGLIGENCE OR OTHERWISE) ARISING IN
 * ANY WAY OUT OF THE USE OF THIS SOFTWARE, EVEN IF ADVISED OF THE
 * POSSIBILITY OF SUCH DAMAGE.
 *
 ****************************************************************************/

#ifndef UTILITY_CRC16_EN_13757_H_
#define UTILITY_CRC16_EN_13757_H_

#include ""typedefs.h""

/**
 * @brief Calculates an 16-bit CRC checksum for a block of data using the EN 13757 polynomial (0x3D65).
 *
 * This function calculates an 16-bit CRC checksum for the given block of data
 * using polynomial 0x3D65. The 'crc_data_ptr' parameter should be
 * a pointer to the block of data to calculate the checksum for. The 'crc_length'
 * parameter is the length of the data block in bytes.
 * The calculation is performed using a lookup table for efficiency.
 *
 * @param[in] crc_data_ptr A pointer to the data block to calculate the checksum for.
 * @param[in] crc_length The length of the data block in bytes.
 * @param[in] final_crc Set the flag to 'true' if it is the last or only operation, and 'false' for data chunks.
 * @param[in] last_crc_ptr Pointer to the last CRC value for data chunks. Shall be set to NULL_PTR if it is the first or only operation.
 *
 * @return The calculated CRC checksum.
 */
uint16_t Crc16_en13757(
    const uint8_t* crc_data_ptr,
    uint32_t crc_length,
    bool final_crc,
    const uint16_t* last_crc_ptr
);

#endif /* UTILITY_CRC16_EN_13757_H_ */
".

(** Inc/crc/crc16_variants/crc16_genibus.h *)
Definition text_crc16_genibus_h : string :=
"/****************************************************************************
 *
 *   Copyright (c) 2023 IMProject Development Team. All rights reserved.
 *   Authors: Igor Misic <igy1000mb@gmail.com>
 *
 * Redistribution and use in source and binary forms, with or without
 * modification, are permitted provided that the following conditions
 * are met:
 *
 * 1. Redistributions of source code must retain the above copyright
 *    notice, this list of conditions and the following disclaimer.
 * 2. Redistributions in binary form must reproduce the above copyright
 *    notice, this list of conditions and the following disclaimer in
 *    the documentation and/or other materials provided with the
 *    distribution.
 * 3. Neither the name IMProject nor the names of its contributors may be
 *    used to endorse or promote products derived from this software
 *    without specific prior written permission.
 *
 * THIS SOFTWARE IS PROVIDED BY THE COPYRIGHT HOLDERS AND CONTRIBUTORS
 * ""AS IS"" AND ANY EXPRESS OR IMPLIED WARRANTIES, INCLUDING, BUT NOT
 * LIMITED TO, THE IMPLIED WARRANTIES OF MERCHANTABILITY AND FITNESS
 * FOR A PARTICULAR PURPOSE ARE DISCLAIMED. IN NO EVENT SHALL THE
 * COPYRIGHT OWNER OR CONTRIBUTORS BE LIABLE FOR ANY DIRECT, INDIRECT,
 * INCIDENTAL, SPECIAL, EXEMPLARY, OR CONSEQUENTIAL DAMAGES (INCLUDING,
 * BUT NOT LIMITED TO, PROCUREMENT OF SUBSTITUTE GOODS OR SERVICES; LOSS
 * OF USE, DATA, OR PROFITS; OR BUSINESS INTERRUPTION) HOWEVER CAUSED
 * AND ON ANY THEORY OF LIABILITY, WHETHER IN CONTRACT, STRICT
 * LIABILITY, OR TORT (INCLUDING NEGLIGENCE OR OTHERWISE) ARISING IN
 * ANY WAY OUT OF THE USE OF THIS SOFTWARE, EVEN IF ADVISED OF THE
 * POSSIBILITY OF SUCH DAMAGE.
 *
 ****************************************************************************/

#ifndef UTILITY_CRC16_GENIBUS_H_
#define UTILITY_CRC16_GENIBUS_H_

#include ""typedefs.h""

/**
 * @brief Calculates an 16-bit CRC checksum for a block of data using the GENIBUS polynomial (0x1021).
 *
 * This function calculates an 16-bit CRC checksum for the given block of data
 * using polynomial 0x1021. The 'crc_data_ptr' parameter should be
 * a pointer to the block of data to calculate the checksum for. The 'crc_length'
 * parameter is the length of the data block in bytes.
 * The calculation is performed using a lookup table for efficiency.
 *
 * @param[in] crc_data_ptr A pointer to the data block to calculate the checksum for.
 * @param[in] crc_length The length of the data block in bytes.
 * @param[in] final_crc Set the flag to 'true' if it is the last or only operation, and 'false' for data chunks.
 * @param[in] last_crc_ptr Pointer to the last CRC value for data chunks. Shall be set to NULL_PTR if it is the first or only operation.
 *
 * @return The calculated CRC checksum.
 */
uint16_t Crc16_genibus(
    const uint8_t* crc_data_ptr,
    uint32_t crc_length,
    bool final_crc,
    const uint16_t* last_crc_ptr
);

#endif /* UTILITY_CRC16_GENIBUS_H_ */
".

(** Inc/crc/crc16_variants/crc16_kermit.h *)
Definition text_crc16_kermit_h : string :=
"/****************************************************************************
 *
 *   Copyright (c) 2023 IMProject Development Team. All rights reserved.
 *   Authors: Igor Misic <igy1000mb@gmail.com>
 *
 * Redistribution and use in source and binary forms, with or without
 * modification, are permitted provided that the following conditions
 * are met:
 *
 * 1. Redistributions of source code must retain the above copyright
 *    notice, this list of conditions and the following disclaimer.
 * 2. Redistributions in binary form must reproduce the above copyright
 *    notice, this list of conditions and the following disclaimer in
 *    the documentation and/or other materials provided with the
 *    distribution.
 * 3. Neither the name IMProject nor the names of its contributors may be
 *    used to endorse or promote products derived from this software
 *    without specific prior written permission.
 *
 * THIS SOFTWARE IS PROVIDED BY THE COPYRIGHT HOLDERS AND CONTRIBUTORS
 * ""AS IS"" AND ANY EXPRESS OR IMPLIED WARRANTIES, INCLUDING, BUT NOT
 * LIMITED TO, THE IMPLIED WARRANTIES OF MERCHANTABILITY AND FITNESS
 * FOR A PARTICULAR PURPOSE ARE DISCLAIMED. IN NO EVENT SHALL THE
 * COPYRIGHT OWNER OR CONTRIBUTORS BE LIABLE FOR ANY DIRECT, INDIRECT,
 * INCIDENTAL, SPECIAL, EXEMPLARY, OR CONSEQUENTIAL DAMAGES (INCLUDING,
 * BUT NOT LIMITED TO, PROCUREMENT OF SUBSTITUTE GOODS OR SERVICES; LOSS
 * OF USE, DATA, OR PROFITS; OR BUSINESS INTERRUPTION) HOWEVER CAUSED
 * AND ON ANY THEORY OF LIABILITY, WHETHER IN CONTRACT, STRICT
 * LIABILITY, OR TORT (INCLUDING NEGLIGENCE OR OTHERWISE) ARISING IN
 * ANY WAY OUT OF THE USE OF THIS SOFTWARE, EVEN IF ADVISED OF THE
 * POSSIBILITY OF SUCH DAMAGE.
 *
 ****************************************************************************/

#ifndef UTILITY_CRC16_KERMIT_H_
#define UTILITY_CRC16_KERMIT_H_

#include ""typedefs.h""

/**
 * @brief Calculates an 16-bit CRC checksum for a block of data using the KERMIT polynomial (0x1021).
 *
 * This function calculates an 16-bit CRC checksum for the given block of data
 * using polynomial 0x1021. The 'crc_data_ptr' parameter should be
 * a pointer to the block of data to calculate the checksum for. The 'crc_length'
 * parameter is the length of the data block in bytes.
 * The calculation is performed using a lookup table for efficiency.
 *
 * @param[in] crc_data_ptr A pointer to the data block to calculate the checksum for.
 * @param[in] crc_length The length of the data block in bytes.
 * @param[in] final_crc Set the flag to 'true' if it is the last or only operation, and 'false' for data chunks.
 * @param[in] last_crc_ptr Pointer to the last CRC value for data chunks. Shall be set to NULL_PTR if it is the first or only operation.
 *
 * @return The calculated CRC checksum.
 */
uint16_t Crc16_kermit(
    const uint8_t* crc_data_ptr,
    uint32_t crc_length,
    bool final_crc,
    const uint16_t* last_crc_ptr
);

#endif /* UTILITY_CRC16_KERMIT_H_ */
".

(** Inc/crc/crc16_variants/crc16_maxim.h *)
Definition text_crc16_maxim_h : string :=
"/****************************************************************************
 *
 *   Copyright (c) 2023 IMProject Development Team. All rights reserved.
 *   Authors: Igor Misic <igy1000mb@gmail.com>
 *
 * Redistribution and use in source and binary forms, with or without
 * modification, are permitted provided that the following conditions
 * are met:
 *
 * 1. Redistributions of source code must retain the above copyright
 *    notice, this list of conditions and the following disclaimer.
 * 2. Redistributions in binary form must reproduce the above copyright
 *    notice, this list of conditions and the following disclaimer in
 *    the documentation and/or other materials provided with the
 *    distribution.
 * 3. Neither the name IMProject nor the names of its contributors may be
 *    used to endorse or promote products derived from this software
 *    without specific prior written permission.
 *
 * THIS SOFTWARE IS PROVIDED BY THE COPYRIGHT HOLDERS AND CONTRIBUTORS
 * ""AS IS"" AND ANY EXPRESS OR IMPLIED WARRANTIES, INCLUDING, BUT NOT
 * LIMITED TO, THE IMPLIED WARRANTIES OF MERCHANTABILITY AND FITNESS
 * FOR A PARTICULAR PURPOSE ARE DISCLAIMED. IN NO EVENT SHALL THE
 * COPYRIGHT OWNER OR CONTRIBUTORS BE LIABLE FOR ANY DIRECT, INDIRECT,
 * INCIDENTAL, SPECIAL, EXEMPLARY, OR CONSEQUENTIAL DAMAGES (INCLUDING,
 * BUT NOT LIMITED TO, PROCUREMENT OF SUBSTITUTE GOODS OR SERVICES; LOSS
 * OF USE, DATA, OR PROFITS; OR BUSINESS INTERRUPTION) HOWEVER CAUSED
 * AND ON ANY THEORY OF LIABILITY, WHETHER IN CONTRACT, STRICT
 * LIABILITY, OR TORT (INCLUDING NEGLIGENCE OR OTHERWISE) ARISING IN
 * ANY WAY OUT OF THE USE OF THIS SOFTWARE, EVEN IF ADVISED OF THE
 * POSSIBILITY OF SUCH DAMAGE.
 *
 ****************************************************************************/

#ifndef UTILITY_CRC16_MAXIM_H_
#define UTILITY_CRC16_MAXIM_H_

#include ""typedefs.h""

/**
 * @brief Calculates an 16-bit CRC checksum for a block of data using the MAXIM polynomial (0x8005).
 *
 * This function calculates an 16-bit CRC checksum for the given block of data
 * using polynomial 0x8005. The 'crc_data_ptr' parameter should be
 * a pointer to the block of data to calculate the checksum for. The 'crc_length'
 * parameter is the length of the data block in bytes.
 * The calculation is performed using a lookup table for efficiency.
 *
 * @param[in] crc_data_ptr A pointer to the data block to calculate the checksum for.
 * @param[in] crc_length The length of the data block in bytes.
 * @param[in] final_crc Set the flag to 'true' if it is the last or only operation, and 'false' for data chunks.
 * @param[in] last_crc_ptr Pointer to the last CRC value for data chunks. Shall be set to NULL_PTR if it is the first or only operation.
 *
 * @return The calculated CRC checksum.
 */
uint16_t Crc16_maxim(
    const uint8_t* crc_data_ptr,
    uint32_t crc_length,
    bool final_crc,
    const uint16_t* last_crc_ptr
);

#endif /* UTILITY_CRC16_MAXIM_H_ */
".

(** Inc/crc/crc16_variants/crc16_mcrf4xx.h *)
Definition text_crc16_mcrf4xx_h : string :=
"/****************************************************************************
 *
 *   Copyright (c) 2023 IMProject Development Team. All rights reserved.
 *   Authors: Igor Misic <igy1000mb@gmail.com>
 *
 * Redistribution and use in source and binary forms, with or without
 * modification, are permitted provided that the following conditions
 * are met:
 *
 * 1. Redistributions of source code must retain the above copyright
 *    notice, this list of conditions and the following disclaimer.
 * 2. Redistributions in binary form must reproduce the above copyright
 *    notice, this list of conditions and the following disclaimer in
 *    the documentation and/or other materials provided with the
 *    distribution.
 * 3. Neither the name IMProject nor the names of its contributors may be
 *    used to endorse or promote products derived from this software
 *    without specific prior written permission.
 *
 * THIS SOFTWARE IS PROVIDED BY THE COPYRIGHT HOLDERS AND CONTRIBUTORS
 * ""AS IS"" AND ANY EXPRESS OR IMPLIED WARRANTIES, INCLUDING, BUT NOT
 * LIMITED TO, THE IMPLIED WARRANTIES OF MERCHANTABILITY AND FITNESS
 * FOR A PARTICULAR PURPOSE ARE DISCLAIMED. IN NO EVENT SHALL THE
 * COPYRIGHT OWNER OR CONTRIBUTORS BE LIABLE FOR ANY DIRECT, INDIRECT,
 * INCIDENTAL, SPECIAL, EXEMPLARY, OR CONSEQUENTIAL DAMAGES (INCLUDING,
 * BUT NOT LIMITED TO, PROCUREMENT OF SUBSTITUTE GOODS OR SERVICES; LOSS
 * OF USE, DATA, OR PROFITS; OR BUSINESS INTERRUPTION) HOWEVER CAUSED
 * AND ON ANY THEORY OF LIABILITY, WHETHER IN CONTRACT, STRICT
 * LIABILITY, OR TORT (INCLUDING NEGLIGENCE OR OTHERWISE) ARISING IN
 * ANY WAY OUT OF THE USE OF THIS SOFTWARE, EVEN IF ADVISED OF THE
 * POSSIBILITY OF SUCH DAMAGE.
 *
 ****************************************************************************/

#ifndef UTILITY_CRC16_MCRF4XX_H_
#define UTILITY_CRC16_MCRF4XX_H_

#include ""typedefs.h""

/**
 * @brief Calculates an 16-bit CRC checksum for a block of data using the MCRF4XX polynomial (0x1021).
 *
 * This function calculates an 16-bit CRC checksum for the given block of data
 * using polynomial 0x1021. The 'crc_data_ptr' parameter should be
 * a pointer to the block of data to calculate the checksum for. The 'crc_length'
 * parameter is the length of the data block in bytes.
 * The calculation is performed using a lookup table for efficiency.
 *
 * @param[in] crc_data_ptr A pointer to the data block to calculate the checksum for.
 * @param[in] crc_length The length of the data block in bytes.
 * @param[in] final_crc Set the flag to 'true' if it is the last or only operation, and 'false' for data chunks.
 * @param[in] last_crc_ptr Pointer to the last CRC value for data chunks. Shall be set to NULL_PTR if it is the first or only operation.
 *
 * @return The calculated CRC checksum.
 */
uint16_t Crc16_mcrf4xx(
    const uint8_t* crc_data_ptr,
    uint32_t crc_length,
    bool final_crc,
    const uint16_t* last_crc_ptr
);

#endif /* UTILITY_CRC16_MCRF4XX_H_ */
".

(** Inc/crc/crc16_variants/crc16_modbus.h *)
Definition text_crc16_modbus_h : string :=
"/****************************************************************************
 *
 *   Copyright (c) 2023 IMProject Development Team. All rights reserved.
 *   Authors: Igor Misic <igy1000mb@gmail.com>
 *
 * Redistribution and use in source and binary forms, with or without
 * modification, are permitted provided that the following conditions
 * are met:
 *
 * 1. Redistributions of source code must retain the above copyright
 *    notice, this list of conditions and the following disclaimer.
 * 2. Redistributions in binary form must reproduce the above copyright
 *    notice, this list of conditions and the following disclaimer in
 *    the documentation and/or other materials provided with the
 *    distribution.
 * 3. Neither the name IMProject nor the names of its contributors may be
 *    used to endorse or promote products derived from this software
 *    without specific prior written permission.
 *
 * THIS SOFTWARE IS PROVIDED BY THE COPYRIGHT HOLDERS AND CONTRIBUTORS
 * ""AS IS"" AND ANY EXPRESS OR IMPLIED WARRANTIES, INCLUDING, BUT NOT
 * LIMITED TO, THE IMPLIED WARRANTIES OF MERCHANTABILITY AND FITNESS
 * FOR A PARTICULAR PURPOSE ARE DISCLAIMED. IN NO EVENT SHALL THE
 * COPYRIGHT OWNER OR CONTRIBUTORS BE LIABLE FOR ANY DIRECT, INDIRECT,
 * INCIDENTAL, SPECIAL, EXEMPLARY, OR CONSEQUENTIAL DAMAGES (INCLUDING,
 * BUT NOT LIMITED TO, PROCUREMENT OF SUBSTITUTE GOODS OR SERVICES; LOSS
 * OF USE, DATA, OR PROFITS; OR BUSINESS INTERRUPTION) HOWEVER CAUSED
 * AND ON ANY THEORY OF LIABILITY, WHETHER IN CONTRACT, STRICT
 * LIABILITY, OR TORT (INCLUDING NEGLIGENCE OR OTHERWISE) ARISING IN
 * ANY WAY OUT OF THE USE OF THIS SOFTWARE, EVEN IF ADVISED OF THE
 * POSSIBILITY OF SUCH DAMAGE.
 *
 ****************************************************************************/

#ifndef UTILITY_CRC16_MODBUS_H_
#define UTILITY_CRC16_MODBUS_H_

#include ""typedefs.h""

/**
 * @brief Calculates an 16-bit CRC checksum for a block of data using the MODBUS polynomial (0x8005).
 *
 * This function calculates an 16-bit CRC checksum for the given block of data
 * using polynomial 0x8005. The 'crc_data_ptr' parameter should be
 * a pointer to the block of data to calculate the checksum for. The 'crc_length'
 * parameter is the length of the data block in bytes.
 * The calculation is performed using a lookup table for efficiency.
 *
 * @param[in] crc_data_ptr A pointer to the data block to calculate the checksum for.
 * @param[in] crc_length The length of the data block in bytes.
 * @param[in] final_crc Set the flag to 'true' if it is the last or only operation, and 'false' for data chunks.
 * @param[in] last_crc_ptr Pointer to the last CRC value for data chunks. Shall be set to NULL_PTR if it is the first or only operation.
 *
 * @return The calculated CRC checksum.
 */
uint16_t Crc16_modbus(
    const uint8_t* crc_data_ptr,
    uint32_t crc_length,
    bool final_crc,
    const uint16_t* last_crc_ptr
);

#endif /* UTILITY_CRC16_MODBUS_H_ */
".

(** Inc/crc/crc16_variants/crc16_riello.h *)
Definition text_crc16_riello_h : string :=
"/****************************************************************************
 *
 *   Copyright (c) 2023 IMProject Development Team. All rights reserved.
 *   Authors: Igor Misic <igy1000mb@gmail.com>
 *
 * Redistribution and use in source and binary forms, with or without
 * modification, are permitted provided that the following conditions
 * are met:
 *
 * 1. Redistributions of source code must retain the above copyright
 *    notice, this list of conditions and the following disclaimer.
 * 2. Redistributions in binary form must reproduce the above copyright
 *    notice, this list of conditions and the following disclaimer in
 *    the documentation and/or other materials provided with the
 *    distribution.
 * 3. Neither the name IMProject nor the names of its contributors may be
 *    used to endorse or promote products derived from this software
 *    without specific prior written permission.
 *
 * THIS SOFTWARE IS PROVIDED BY THE COPYRIGHT HOLDERS AND CONTRIBUTORS
 * ""AS IS"" AND ANY EXPRESS OR IMPLIED WARRANTIES, INCLUDING, BUT NOT
 * LIMITED TO, THE IMPLIED WARRANTIES OF MERCHANTABILITY AND FITNESS
 * FOR A PARTICULAR PURPOSE ARE DISCLAIMED. IN NO EVENT SHALL THE
 * COPYRIGHT OWNER OR CONTRIBUTORS BE LIABLE FOR ANY DIRECT, INDIRECT,
 * INCIDENTAL, SPECIAL, EXEMPLARY, OR CONSEQUENTIAL DAMAGES (INCLUDING,
 * BUT NOT LIMITED TO, PROCUREMENT OF SUBSTITUTE GOODS OR SERVICES; LOSS
 * OF USE, DATA, OR PROFITS; OR BUSINESS INTERRUPTION) HOWEVER CAUSED
 * AND ON ANY THEORY OF LIABILITY, WHETHER IN CONTRACT, STRICT
 * LIABILITY, OR TORT (INCLUDING NEGLIGENCE OR OTHERWISE) ARISING IN
 * ANY WAY OUT OF THE USE OF THIS SOFTWARE, EVEN IF ADVISED OF THE
 * POSSIBILITY OF SUCH DAMAGE.
 *
 ****************************************************************************/

#ifndef UTILITY_CRC16_RIELLO_H_
#define UTILITY_CRC16_RIELLO_H_

#include ""typedefs.h""

/**
 * @brief Calculates an 16-bit CRC checksum for a block of data using the RIELLO polynomial (0x1021).
 *
 * This function calculates an 16-bit CRC checksum for the given block of data
 * using polynomial 0x1021. The 'crc_data_ptr' parameter should be
 * a pointer to the block of data to calculate the checksum for. The 'crc_length'
 * parameter is the length of the data block in bytes.
 * The calculation is performed using a lookup table for efficiency.
 *
 * @param[in] crc_data_ptr A pointer to the data block to calculate the checksum for.
 * @param[in] crc_length The length of the data block in bytes.
 * @param[in] final_crc Set the flag to 'true' if it is the last or only operation, and 'false' for data chunks.
 * @param[in] last_crc_ptr Pointer to the last CRC value for data chunks. Shall be set to NULL_PTR if it is the first or only operation.
 *
 * @return The calculated CRC checksum.
 */
uint16_t Crc16_riello(
    const uint8_t* crc_data_ptr,
    uint32_t crc_length,
    bool final_crc,
    const uint16_t* last_crc_ptr
);

#endif /* UTILITY_CRC16_RIELLO_H_ */
".

(** Inc/crc/crc16_variants/crc16_t10_dif.h *)
Definition text_crc16_t10_dif_h : string :=
"/****************************************************************************
 *
 *   Copyright (c) 2023 IMProject Development Team. All rights reserved.
 *   Authors: Igor Misic <igy1000mb@gmail.com>
 *
 * Redistribution and use in source and binary forms, with or without
 * modification, are permitted provided that the following conditions
 * are met:
 *
 * 1. Redistributions of source code must retain the above copyright
 *    notice, this list of conditions and the following disclaimer.
 * 2. Redistributions in binary form must reproduce the above copyright
 *    notice, this list of conditions and the following disclaimer in
 *    the documentation and/or other materials provided with the
 *    distribution.
 * 3. Neither the name IMProject nor the names of its contributors may be
 *    used to endorse or promote products derived from this software
 *    without specific prior written permission.
 *
 * THIS SOFTWARE IS PROVIDED BY THE COPYRIGHT HOLDERS AND CONTRIBUTORS
 * ""AS IS"" AND ANY EXPRESS OR IMPLIED WARRANTIES, INCLUDING, BUT NOT
 * LIMITED TO, THE IMPLIED WARRANTIES OF MERCHANTABILITY AND FITNESS
 * FOR A PARTICULAR PURPOSE ARE DISCLAIMED. IN NO EVENT SHALL THE
 * COPYRIGHT OWNER OR CONTRIBUTORS BE LIABLE FOR ANY DIRECT, INDIRECT,
 * INCIDENTAL, SPECIAL, EXEMPLARY, OR CONSEQUENTIAL DAMAGES (INCLUDING,
 * BUT NOT LIMITED TO, PROCUREMENT OF SUBSTITUTE GOODS OR SERVICES; LOSS
 * OF USE, DATA, OR PROFITS; OR BUSINESS INTERRUPTION) HOWEVER CAUSED
 * AND ON ANY THEORY OF LIABILITY, WHETHER IN CONTRACT, STRICT
 * LIABILITY, OR TORT (INCLUDING NEGLIGENCE OR OTHERWISE) ARISING IN
 * ANY WAY OUT OF THE USE OF THIS SOFTWARE, EVEN IF ADVISED OF THE
 * POSSIBILITY OF SUCH DAMAGE.
 *
 ****************************************************************************/

#ifndef UTILITY_CRC16_T10_DIF_H_
#define UTILITY_CRC16_T10_DIF_H_

#include ""typedefs.h""

/**
 * @brief Calculates an 16-bit CRC checksum for a block of data using the T10 DIF polynomial (0x8BB7).
 *
 * This function calculates an 16-bit CRC checksum for the given block of data
 * using polynomial 0x8BB7. The 'crc_data_ptr' parameter should be
 * a pointer to the block of data to calculate the checksum for. The 'crc_length'
 * parameter is the length of the data block in bytes.
 * The calculation is performed using a lookup table for efficiency.
 *
 * @param[in] crc_data_ptr A pointer to the data block to calculate the checksum for.
 * @param[in] crc_length The length of the data block in bytes.
 * @param[in] last_crc_ptr Pointer to the last CRC value for data chunks. Shall be set to NULL_PTR if it is the first or only operation.
 *
 * @return The calculated CRC checksum.
 */
uint16_t Crc16_t10Dif(
    const uint8_t* crc_data_ptr,
    uint32_t crc_length,
    const uint16_t* last_crc_ptr
);

#endif /* UTILITY_CRC16_T10_DIF_H_ */
".

(** Inc/crc/crc16_variants/crc16_teledisk.h *)
Definition text_crc16_teledisk_h : string :=
"/****************************************************************************
 *
 *   Copyright (c) 2023 IMProject Development Team. All rights reserved.
 *   Authors: Igor Misic <igy1000mb@gmail.com>
 *
 * Redistribution and use in source and binary forms, with or without
 * modification, are permitted provided that the following conditions
 * are met:
 *
 * 1. Redistributions of source code must retain the above copyright
 *    notice, this list of conditions and the following disclaimer.
 * 2. Redistributions in binary form must reproduce the above copyright
 *    notice, this list of conditions and the following disclaimer in
 *    the documentation and/or other materials provided with the
 *    distribution.
 * 3. Neither the name IMProject nor the names of its contributors may be
 *    used to endorse or promote products derived from this software
 *    without specific prior written permission.
 *
 * THIS SOFTWARE IS PROVIDED BY THE COPYRIGHT HOLDERS AND CONTRIBUTORS
 * ""AS IS"" AND ANY EXPRESS OR IMPLIED WARRANTIES, INCLUDING, BUT NOT
 * LIMITED TO, THE IMPLIED WARRANTIES OF MERCHANTABILITY AND FITNESS
 * FOR A PARTICULAR PURPOSE ARE DISCLAIMED. IN NO EVENT SHALL THE
 * COPYRIGHT OWNER OR CONTRIBUTORS BE LIABLE FOR ANY DIRECT, INDIRECT,
 * INCIDENTAL, SPECIAL, EXEMPLARY, OR CONSEQUENTIAL DAMAGES (INCLUDING,
 * BUT NOT LIMITED TO, PROCUREMENT OF SUBSTITUTE GOODS OR SERVICES; LOSS
 * OF USE, DATA, OR PROFITS; OR BUSINESS INTERRUPTION) HOWEVER CAUSED
 * AND ON ANY THEORY OF LIABILITY, WHETHER IN CONTRACT, STRICT
 * LIABILITY, OR TORT (INCLUDING NEGLIGENCE OR OTHERWISE) ARISING IN
 * ANY WAY OUT OF THE USE OF THIS SOFTWARE, EVEN IF ADVISED OF THE
 * POSSIBILITY OF SUCH DAMAGE.
 *
 ****************************************************************************/

#ifndef UTILITY_CRC16_TELEDISK_H_
#define UTILITY_CRC16_TELEDISK_H_

#include ""typedefs.h""

/**
 * @brief Calculates an 16-bit CRC checksum for a block of data using the TELEDISK polynomial (0xA097).
 *
 * This function calculates an 16-bit CRC checksum for the given block of data
 * using polynomial 0xA097. The 'crc_data_ptr' parameter should be
 * a pointer to the block of data to calculate the checksum for. The 'crc_length'
 * parameter is the length of the data block in bytes.
 * The calculation is performed using a lookup table for efficiency.
 *
 * @param[in] crc_data_ptr A pointer to the data block to calculate the checksum for.
 * @param[in] crc_length The length of the data block in bytes.
 * @param[in] last_crc_ptr Pointer to the last CRC value for data chunks. Shall be set to NULL_PTR if it is the first or only operation.
 *
 * @return The calculated CRC checksum.
 */
uint16_t Crc16_teledisk(
    const uint8_t* crc_data_ptr,
    uint32_t crc_length,
    const uint16_t* last_crc_ptr
);

#endif /* UTILITY_CRC16_TELEDISK_H_ */
".

(** Inc/crc/crc16_variants/crc16_tms37157.h *)
Definition text_crc16_tms37157_h : string :=
"/****************************************************************************
 *
 *   Copyright (c) 2023 IMProject Development Team. All rights reserved.
 *   Authors: Igor Misic <igy1000mb@gmail.com>
 *
 * Redistribution and use in source and binary forms, with or without
 * modification, are permitted provided that the following conditions
 * are met:
 *
 * 1. Redistributions of source code must retain the above copyright
 *    notice, this list of conditions and the following disclaimer.
 * 2. Redistributions in binary form must reproduce the above copyright
 *    notice, this list of conditions and the following disclaimer in
 *    the documentation and/or other materials provided with the
 *    distribution.
 * 3. Neither the name IMProject nor the names of its contributors may be
 *    used to endorse or promote products derived from this software
 *    without specific prior written permission.
 *
 * THIS SOFTWARE IS PROVIDED BY THE COPYRIGHT HOLDERS AND CONTRIBUTORS
 * ""AS IS"" AND ANY EXPRESS OR IMPLIED WARRANTIES, INCLUDING, BUT NOT
 * LIMITED TO, THE IMPLIED WARRANTIES OF MERCHANTABILITY AND FITNESS
 * FOR A PARTICULAR PURPOSE ARE DISCLAIMED. IN NO EVENT SHALL THE
 * COPYRIGHT OWNER OR CONTRIBUTORS BE LIABLE FOR ANY DIRECT, INDIRECT,
 * INCIDENTAL, SPECIAL, EXEMPLARY, OR CONSEQUENTIAL DAMAGES (INCLUDING,
 * BUT NOT LIMITED TO, PROCUREMENT OF SUBSTITUTE GOODS OR SERVICES; LOSS
 * OF USE, DATA, OR PROFITS; OR BUSINESS INTERRUPTION) HOWEVER CAUSED
 * AND ON ANY THEORY OF LIABILITY, WHETHER IN CONTRACT, STRICT
 * LIABILITY, OR TORT (INCLUDING NEGLIGENCE OR OTHERWISE) ARISING IN
 * ANY WAY OUT OF THE USE OF THIS SOFTWARE, EVEN IF ADVISED OF THE
 * POSSIBILITY OF SUCH DAMAGE.
 *
 ****************************************************************************/

#ifndef UTILITY_CRC16_TMS37157_H_
#define UTILITY_CRC16_TMS37157_H_

#include ""typedefs.h""

/**
 * @brief Calculates an 16-bit CRC checksum for a block of data using the TMS37157 polynomial (0x1021).
 *
 * This function calculates an 16-bit CRC checksum for the given block of data
 * using polynomial 0x1021. The 'crc_data_ptr' parameter should be
 * a pointer to the block of data to calculate the checksum for. The 'crc_length'
 * parameter is the length of the data block in bytes.
 * The calculation is performed using a lookup table for efficiency.
 *
 * @param[in] crc_data_ptr A pointer to the data block to calculate the checksum for.
 * @param[in] crc_length The length of the data block in bytes.
 * @param[in] final_crc Set the flag to 'true' if it is the last or only operation, and 'false' for data chunks.
 * @param[in] last_crc_ptr Pointer to the last CRC value for data chunks. Shall be set to NULL_PTR if it is the first or only operation.
 *
 * @return The calculated CRC checksum.
 */
uint16_t Crc16_tms37157(
    const uint8_t* crc_data_ptr,
    uint32_t crc_length,
    bool final_crc,
    const uint16_t* last_crc_ptr
);

#endif /* UTILITY_CRC16_TMS37157_H_ */
".

(** Inc/crc/crc16_variants/crc16_usb.h *)
Definition text_crc16_usb_h : string :=
"/****************************************************************************
 *
 *   Copyright (c) 2023 IMProject Development Team. All rights reserved.
 *   Authors: Igor Misic <igy1000mb@gmail.com>
 *
 * Redistribution and use in source and binary forms, with or without
 * modification, are permitted provided that the following conditions
 * are met:
 *
 * 1. Redistributions of source code must retain the above copyright
 *    notice, this list of conditions and the following disclaimer.
 * 2. Redistributions in binary form must reproduce the above copyright
 *    notice, this list of conditions and the following disclaimer in
 *    the documentation and/or other materials provided with the
 *    distribution.
 * 3. Neither the name IMProject nor the names of its contributors may be
 *    used to endorse or promote products derived from this software
 *    without specific prior written permission.
 *
 * THIS SOFTWARE IS PROVIDED BY THE COPYRIGHT HOLDERS AND CONTRIBUTORS
 * ""AS IS"" AND ANY EXPRESS OR IMPLIED WARRANTIES, INCLUDING, BUT NOT
 * LIMITED TO, THE IMPLIED WARRANTIES OF MERCHANTABILITY AND FITNESS
 * FOR A PARTICULAR PURPOSE ARE DISCLAIMED. IN NO EVENT SHALL THE
 * COPYRIGHT OWNER OR CONTRIBUTORS BE LIABLE FOR ANY DIRECT, INDIRECT,
 * INCIDENTAL, SPECIAL, EXEMPLARY, OR CONSEQUENTIAL DAMAGES (INCLUDING,
 * BUT NOT LIMITED TO, PROCUREMENT OF SUBSTITUTE GOODS OR SERVICES; LOSS
 * OF USE, DATA, OR PROFITS; OR BUSINESS INTERRUPTION) HOWEVER CAUSED
 * AND ON ANY THEORY OF LIABILITY, WHETHER IN CONTRACT, STRICT
 * LIABILITY, OR TORT (INCLUDING NEGLIGENCE OR OTHERWISE) ARISING IN
 * ANY WAY OUT OF THE USE OF THIS SOFTWARE, EVEN IF ADVISED OF THE
 * POSSIBILITY OF SUCH DAMAGE.
 *
 ****************************************************************************/

#ifndef UTILITY_CRC16_USB_H_
#define UTILITY_CRC16_USB_H_

#include ""typedefs.h""

/**
 * @brief Calculates an 16-bit CRC checksum for a block of data using the USB polynomial (0x8005).
 *
 * This function calculates an 16-bit CRC checksum for the given block of data
 * using polynomial 0x8005. The 'crc_data_ptr' parameter should be
 * a pointer to the block of data to calculate the checksum for. The 'crc_length'
 * parameter is the length of the data block in bytes.
 * The calculation is performed using a lookup table for efficiency.
 *
 * @param[in] crc_data_ptr A pointer to the data block to calculate the checksum for.
 * @param[in] crc_length The length of the data block in bytes.
 * @param[in] final_crc Set the flag to 'true' if it is the last or only operation, and 'false' for data chunks.
 * @param[in] last_crc_ptr Pointer to the last CRC value for data chunks. Shall be set to NULL_PTR if it is the first or only operation.
 *
 * @return The calculated CRC checksum.
 */
uint16_t Crc16_usb(
    const uint8_t* crc_data_ptr,
    uint32_t crc_length,
    bool final_crc,
    const uint16_t* last_crc_ptr
);

#endif /* UTILITY_CRC16_USB_H_ */
".

(** Inc/crc/crc16_variants/crc16_x_25.h *)
Definition text_crc16_x_25_h : string :=
"/****************************************************************************
 *
 *   Copyright (c) 2023 IMProject Development Team. All rights reserved.
 *   Authors: Igor Misic <igy1000mb@gmail.com>
 *
 * Redistribution and use in source and binary forms, with or without
 * modification, are permitted provided that the following conditions
 * are met:
 *
 * 1. Redistributions of source code must retain the above copyright
 *    notice, this list of conditions and the following disclaimer.
 * 2. Redistributions in binary form must reproduce the above copyright
 *    notice, this list of conditions and the following disclaimer in
 *    the documentation and/or other materials provided with the
 *    distribution.
 * 3. Neither the name IMProject nor the names of its contributors may be
 *    used to endorse or promote products derived from this software
 *    without specific prior written permission.
 *
 * THIS SOFTWARE IS PROVIDED BY THE COPYRIGHT HOLDERS AND CONTRIBUTORS
 * ""AS IS"" AND ANY EXPRESS OR IMPLIED WARRANTIES, INCLUDING, BUT NOT
 * LIMITED TO, THE IMPLIED WARRANTIES OF MERCHANTABILITY AND FITNESS
 * FOR A PARTICULAR PURPOSE ARE DISCLAIMED. IN NO EVENT SHALL THE
 * COPYRIGHT OWNER OR CONTRIBUTORS BE LIABLE FOR ANY DIRECT, INDIRECT,
 * INCIDENTAL, SPECIAL, EXEMPLARY, OR CONSEQUENTIAL DAMAGES (INCLUDING,
 * BUT NOT LIMITED TO, PROCUREMENT OF SUBSTITUTE GOODS OR SERVICES; LOSS
 * OF USE, DATA, OR PROFITS; OR BUSINESS INTERRUPTION) HOWEVER CAUSED
 * AND ON ANY THEORY OF LIABILITY, WHETHER IN CONTRACT, STRICT
 * LIABILITY, OR TORT (INCLUDING NEGLIGENCE OR OTHERWISE) ARISING IN
 * ANY WAY OUT OF THE USE OF THIS SOFTWARE, EVEN IF ADVISED OF THE
 * POSSIBILITY OF SUCH DAMAGE.
 *
 ****************************************************************************/

#ifndef UTILITY_CRC16_X_25_H_
#define UTILITY_CRC16_X_25_H_

#include ""typedefs.h""

/**
 * @brief Calculates an 16-bit CRC checksum for a block of data using the X 25 polynomial (0x1021).
 *
 * This function calculates an 16-bit CRC checksum for the given block of data
 * using polynomial 0x1021. The 'crc_data_ptr' parameter should be
 * a pointer to the block of data to calculate the checksum for. The 'crc_length'
 * parameter is the length of the data block in bytes.
 * The calculation is performed using a lookup table for efficiency.
 *
 * @param[in] crc_data_ptr A pointer to the data block to calculate the checksum for.
 * @param[in] crc_length The length of the data block in bytes.
 * @param[in] final_crc Set the flag to 'true' if it is the last or only operation, and 'false' for data chunks.
 * @param[in] last_crc_ptr Pointer to the last CRC value for data chunks. Shall be set to NULL_PTR if it is the first or only operation.
 *
 * @return The calculated CRC checksum.
 */
uint16_t Crc16_x25(
    const uint8_t* crc_data_ptr,
    uint32_t crc_length,
    bool final_crc,
    const uint16_t* last_crc_ptr
);

#endif /* UTILITY_CRC16_X_25_H_ */
".

(** Inc/crc/crc32_variants/crc32.h *)
Definition text_crc32_h : string :=
"/****************************************************************************
 *
 *   Copyright (c) 2021 - 2023 IMProject Development Team. All rights reserved.
 *   Authors: Igor Misic <igy1000mb@gmail.com>
 *
 * Redistribution and use in source and binary forms, with or without
 * modification, are permitted provided that the following conditions
 * are met:
 *
 * 1. Redistributions of source code must retain the above copyright
 *    notice, this list of conditions and the following disclaimer.
 * 2. Redistributions in binary form must reproduce the above copyright
 *    notice, this list of conditions and the following disclaimer in
 *    the documentation and/or other materials provided with the
 *    distribution.
 * 3. Neither the name IMProject nor the names of its contributors may be
 *    used to endorse or promote products derived from this software
 *    without specific prior written permission.
 *
 * THIS SOFTWARE IS PROVIDED BY THE COPYRIGHT HOLDERS AND CONTRIBUTORS
 * ""AS IS"" AND ANY EXPRESS OR IMPLIED WARRANTIES, INCLUDING, BUT NOT
 * LIMITED TO, THE IMPLIED WARRANTIES OF MERCHANTABILITY AND FITNESS
 * FOR A PARTICULAR PURPOSE ARE DISCLAIMED. IN NO EVENT SHALL THE
 * COPYRIGHT OWNER OR CONTRIBUTORS BE LIABLE FOR ANY DIRECT, INDIRECT,
 * INCIDENTAL, SPECIAL, EXEMPLARY, OR CONSEQUENTIAL DAMAGES (INCLUDING,
 * BUT NOT LIMITED TO, PROCUREMENT OF SUBSTITUTE GOODS OR SERVICES; LOSS
 * OF USE, DATA, OR PROFITS; OR BUSINESS INTERRUPTION) HOWEVER CAUSED
 * AND ON ANY THEORY OF LIABILITY, WHETHER IN CONTRACT, STRICT
 * LIABILITY, OR TORT (INCLUDING NEGLIGENCE OR OTHERWISE) ARISING IN
 * ANY WAY OUT OF THE USE OF THIS SOFTWARE, EVEN IF ADVISED OF THE
 * POSSIBILITY OF SUCH DAMAGE.
 *
 ****************************************************************************/

#ifndef UTILITY_CRC32_H_
#define UTILITY_CRC32_H_

#include ""typedefs.h""

/**
 * @brief Calculates an 32-bit CRC checksum for a block of data using polynomial (0x4C11DB7).
 *
 * This function calculates an 32-bit CRC checksum for the given block of data
 * using a basic algorithm that uses the polynomial (0x4C11DB7).
 * The 'crc_data_ptr' parameter should be a pointer to the block of data to
 * calculate the checksum for. The 'crc_length' parameter is the length of the
 * data block in bytes. The 'final_crc' parameter indicates whether to perform a final XOR
 * and output reflection operation. It shall be used when calculating CRC in chunks.
 * The calculation is performed using a lookup table for efficiency.
 *
 * @param[in] crc_data_ptr A pointer to the data block to calculate the checksum for.
 * @param[in] crc_length The length of the data block in bytes.
 * @param[in] final_crc Set the flag to 'true' if it is the last or only operation, and 'false' for data chunks.
 * @param[in] last_crc_ptr Pointer to the last CRC value for data chunks. Shall be set to NULL_PTR if it is the first or only operation.
 *
 * @return The calculated CRC checksum.
 */
uint32_t Crc32(
    const uint8_t* crc_data_ptr,
    uint32_t crc_length,
    bool final_crc,
    const uint32_t* last_crc_ptr
);

#endif /* UTILITY_CRC32_H_ */
".

(** Inc/crc/crc32_variants/crc32_bzip2.h *)
Definition text_crc32_bzip2_h : string :=
"/****************************************************************************
 *
 *   Copyright (c) 2023 IMProject Development Team. All rights reserved.
 *   Authors: Igor Misic <igy1000mb@gmail.com>
 *
 * Redistribution and use in source and binary forms, with or without
 * modification, are permitted provided that the following conditions
 * are met:
 *
 * 1. Redistributions of source code must retain the above copyright
 *    notice, this list of conditions and the following disclaimer.
 * 2. Redistributions in binary form must reproduce the above copyright
 *    notice, this list of conditions and the following disclaimer in
 *    the documentation and/or other materials provided with the
 *    distribution.
 * 3. Neither the name IMProject nor the names of its contributors may be
 *    used to endorse or promote products derived from this software
 *    without specific prior written permission.
 *
 * THIS SOFTWARE IS PROVIDED BY THE COPYRIGHT HOLDERS AND CONTRIBUTORS
 * ""AS IS"" AND ANY EXPRESS OR IMPLIED WARRANTIES, INCLUDING, BUT NOT
 * LIMITED TO, THE IMPLIED WARRANTIES OF MERCHANTABILITY AND FITNESS
 * FOR A PARTICULAR PURPOSE ARE DISCLAIMED. IN NO EVENT SHALL THE
 * COPYRIGHT OWNER OR CONTRIBUTORS BE LIABLE FOR ANY DIRECT, INDIRECT,
 * INCIDENTAL, SPECIAL, EXEMPLARY, OR CONSEQUENTIAL DAMAGES (INCLUDING,
 * BUT NOT LIMITED TO, PROCUREMENT OF SUBSTITUTE GOODS OR SERVICES; LOSS
 * OF USE, DATA, OR PROFITS; OR BUSINESS INTERRUPTION) HOWEVER CAUSED
 * AND ON ANY THEORY OF LIABILITY, WHETHER IN CONTRACT, STRICT
 * LIABILITY, OR TORT (INCLUDING NEGLIGENCE OR OTHERWISE) ARISING IN
 * ANY WAY OUT OF THE USE OF THIS SOFTWARE, EVEN IF ADVISED OF THE
 * POSSIBILITY OF SUCH DAMAGE.
 *
 ****************************************************************************/

#ifndef UTILITY_CRC32_BZIP2_H_
#define UTILITY_CRC32_BZIP2_H_

#include ""typedefs.h""

/**
 * @brief Calculates an 32-bit CRC checksum for a block of data using polynomial (0x4C11DB7).
 *
 * This function calculates an 32-bit CRC checksum for the given block of data
 * using a basic algorithm that uses the polynomial (0x4C11DB7).
 * The CRC32_BZIP2 function will not perform reflection on its input and output data.
 * The 'crc_data_ptr' parameter should be a pointer to the block of data to
 * calculate the checksum for. The 'crc_length' parameter is the length of the
 * data block in bytes. The 'final_crc' parameter indicates whether to perform a final XOR operation.
 * It shall be used when calculating CRC in chunks.
 * The calculation is performed using a lookup table for efficiency.
 *
 * @param[in] crc_data_ptr A pointer to the data block to calculate the checksum for.
 * @param[in] crc_length The length of the data block in bytes.
 * @param[in] final_crc Set the flag to 'true' if it is the last or only operation, and 'false' for data chunks.
 * @param[in] last_crc_ptr Pointer to the last CRC value for data chunks. Shall be set to NULL_PTR if it is the first or only operation.
 *
 * @return The calculated CRC checksum.
 */
uint32_t Crc32_bzip2(
    const uint8_t* crc_data_ptr,
    uint32_t crc_length,
    bool final_crc,
    const uint32_t* last_crc_ptr
);

#endif /* UTILITY_CRC32_BZIP2_H_ */
".

(** Inc/crc/crc32_variants/crc32_c.h *)
Definition text_crc32_c_h : string :=
"/****************************************************************************
 *
 *   Copyright (c) 2023 IMProject Development Team. All rights reserved.
 *   Authors: Igor Misic <igy1000mb@gmail.com>
 *
 * Redistribution and use in source and binary forms, with or without
 * modification, are permitted provided that the following conditions
 * are met:
 *
 * 1. Redistributions of source code must retain the above copyright
 *    notice, this list of conditions and the following disclaimer.
 * 2. Redistributions in binary form must reproduce the above copyright
 *    notice, this list of conditions and the following disclaimer in
 *    the documentation and/or other materials provided with the
 *    distribution.
 * 3. Neither the name IMProject nor the names of its contributors may be
 *    used to endorse or promote products derived from this software
 *    without specific prior written permission.
 *
 * THIS SOFTWARE IS PROVIDED BY THE COPYRIGHT HOLDERS AND CONTRIBUTORS
 * ""AS IS"" AND ANY EXPRESS OR IMPLIED WARRANTIES, INCLUDING, BUT NOT
 * LIMITED TO, THE IMPLIED WARRANTIES OF MERCHANTABILITY AND FITNESS
 * FOR A PARTICULAR PURPOSE ARE DISCLAIMED. IN NO EVENT SHALL THE
 * COPYRIGHT OWNER OR CONTRIBUTORS BE LIABLE FOR ANY DIRECT, INDIRECT,
 * INCIDENTAL, SPECIAL, EXEMPLARY, OR CONSEQUENTIAL DAMAGES (INCLUDING,
 * BUT NOT LIMITED TO, PROCUREMENT OF SUBSTITUTE GOODS OR SERVICES; LOSS
 * OF USE, DATA, OR PROFITS; OR BUSINESS INTERRUPTION) HOWEVER CAUSED
 * AND ON ANY THEORY OF LIABILITY, WHETHER IN CONTRACT, STRICT
 * LIABILITY, OR TORT (INCLUDING NEGLIGENCE OR OTHERWISE) ARISING IN
 * ANY WAY OUT OF THE USE OF THIS SOFTWARE, EVEN IF ADVISED OF THE
 * POSSIBILITY OF SUCH DAMAGE.
 *
 ****************************************************************************/

#ifndef UTILITY_CRC32_C_H_
#define UTILITY_CRC32_C_H_

#include ""typedefs.h""

/**
 * @brief Calculates an 32-bit CRC checksum for a block of data using polynomial (0x1EDC6F41).
 *
 * This function calculates an 32-bit CRC checksum for the given block of data
 * using a basic algorithm that uses the polynomial (0x1EDC6F41).
 * The 'crc_data_ptr' parameter should be a pointer to the block of data to
 * calculate the checksum for. The 'crc_length' parameter is the length of the
 * data block in bytes. The 'final_crc' parameter indicates whether to perform a final XOR
 * and output reflection operation. It shall be used when calculating CRC in chunks.
 * The calculation is performed using a lookup table for efficiency.
 *
 * @param[in] crc_data_ptr A pointer to the data block to calculate the checksum for.
 * @param[in] crc_length The length of the data block in bytes.
 * @param[in] final_crc Set the flag to 'true' if it is the last or only operation, and 'false' for data chunks.
 * @param[in] last_crc_ptr Pointer to the last CRC value for data chunks. Shall be set to NULL_PTR if it is the first or only operation.
 *
 * @return The calculated CRC checksum.
 */
uint32_t Crc32_c(
    const uint8_t* crc_data_ptr,
    uint32_t crc_length,
    bool final_crc,
    const uint32_t* last_crc_ptr
);

#endif /* UTILITY_CRC32_C_H_ */
".

(** Inc/crc/crc32_variants/crc32_d.h *)
Definition text_crc32_d_h : string :=
"/****************************************************************************
 *
 *   Copyright (c) 2023 IMProject Development Team. All rights reserved.
 *   Authors: Igor Misic <igy1000mb@gmail.com>
 *
 * Redistribution and use in source and binary forms, with or without
 * modification, are permitted provided that the following conditions
 * are met:
 *
 * 1. Redistributions of source code must retain the above copyright
 *    notice, this list of conditions and the following disclaimer.
 * 2. Redistributions in binary form must reproduce the above copyright
 *    notice, this list of conditions and the following disclaimer in
 *    the documentation and/or other materials provided with the
 *    distribution.
 * 3. Neither the name IMProject nor the names of its contributors may be
 *    used to endorse or promote products derived from this software
 *    without specific prior written permission.
 *
 * THIS SOFTWARE IS PROVIDED BY THE COPYRIGHT HOLDERS AND CONTRIBUTORS
 * ""AS IS"" AND ANY EXPRESS OR IMPLIED WARRANTIES, INCLUDING, BUT NOT
 * LIMITED TO, THE IMPLIED WARRANTIES OF MERCHANTABILITY AND FITNESS
 * FOR A PARTICULAR PURPOSE ARE DISCLAIMED. IN NO EVENT SHALL THE
 * COPYRIGHT OWNER OR CONTRIBUTORS BE LIABLE FOR ANY DIRECT, INDIRECT,
 * INCIDENTAL, SPECIAL, EXEMPLARY, OR CONSEQUENTIAL DAMAGES (INCLUDING,
 * BUT NOT LIMITED TO, PROCUREMENT OF SUBSTITUTE GOODS OR SERVICES; LOSS
 * OF USE, DATA, OR PROFITS; OR BUSINESS INTERRUPTION) HOWEVER CAUSED
 * AND ON ANY THEORY OF LIABILITY, WHETHER IN CONTRACT, STRICT
 * LIABILITY, OR TORT (INCLUDING NEGLIGENCE OR OTHERWISE) ARISING IN
 * ANY WAY OUT OF THE USE OF THIS SOFTWARE, EVEN IF ADVISED OF THE
 * POSSIBILITY OF SUCH DAMAGE.
 *
 ****************************************************************************/

#ifndef UTILITY_CRC32_D_H_
#define UTILITY_CRC32_D_H_

#include ""typedefs.h""

/**
 * @brief Calculates an 32-bit CRC checksum for a block of data using polynomial (0x4C11DB7).
 *
 * This function calculates an 32-bit CRC checksum for the given block of data
 * using a basic algorithm that uses the polynomial (0x4C11DB7).
 * The 'crc_data_ptr' parameter should be a pointer to the block of data to
 * calculate the checksum for. The 'crc_length' parameter is the length of the
 * data block in bytes. The 'final_crc' parameter indicates whether to perform a final XOR
 * and output reflection operation. It shall be used when calculating CRC in chunks.
 * The calculation is performed using a lookup table for efficiency.
 *
 * @param[in] crc_data_ptr A pointer to the data block to calculate the checksum for.
 * @param[in] crc_length The length of the data block in bytes.
 * @param[in] final_crc Set the flag to 'true' if it is the last or only operation, and 'false' for data chunks.
 * @param[in] last_crc_ptr Pointer to the last CRC value for data chunks. Shall be set to NULL_PTR if it is the first or only operation.
 *
 * @return The calculated CRC checksum.
 */
uint32_t Crc32_d(
    const uint8_t* crc_data_ptr,
    uint32_t crc_length,
    bool final_crc,
    const uint32_t* last_crc_ptr
);

#endif /* UTILITY_CRC32_D_H_ */
".

(** Inc/crc/crc32_variants/crc32_jamcrc.h *)
Definition text_crc32_jamcrc_h : string :=
"/****************************************************************************
 *
 *   Copyright (c) 2023 IMProject Development Team. All rights reserved.
 *   Authors: Igor Misic <igy1000mb@gmail.com>
 *
 * Redistribution and use in source and binary forms, with or without
 * modification, are permitted provided that the following conditions
 * are met:
 *
 * 1. Redistributions of source code must retain the above copyright
 *    notice, this list of conditions and the following disclaimer.
 * 2. Redistributions in binary form must reproduce the above copyright
 *    notice, this list of conditions and the following disclaimer in
 *    the documentation and/or other materials provided with the
 *    distribution.
 * 3. Neither the name IMProject nor the names of its contributors may be
 *    used to endorse or promote products derived from this software
 *    without specific prior written permission.
 *
 * THIS SOFTWARE IS PROVIDED BY THE COPYRIGHT HOLDERS AND CONTRIBUTORS
 * ""AS IS"" AND ANY EXPRESS OR IMPLIED WARRANTIES, INCLUDING, BUT NOT
 * LIMITED TO, THE IMPLIED WARRANTIES OF MERCHANTABILITY AND FITNESS
 * FOR A PARTICULAR PURPOSE ARE DISCLAIMED. IN NO EVENT SHALL THE
 * COPYRIGHT OWNER OR CONTRIBUTORS BE LIABLE FOR ANY DIRECT, INDIRECT,
 * INCIDENTAL, SPECIAL, EXEMPLARY, OR CONSEQUENTIAL DAMAGES (INCLUDING,
 * BUT NOT LIMITED TO, PROCUREMENT OF SUBSTITUTE GOODS OR SERVICES; LOSS
 * OF USE, DATA, OR PROFITS; OR BUSINESS INTERRUPTION) HOWEVER CAUSED
 * AND ON ANY THEORY OF LIABILITY, WHETHER IN CONTRACT, STRICT
 * LIABILITY, OR TORT (INCLUDING NEGLIGENCE OR OTHERWISE) ARISING IN
 * ANY WAY OUT OF THE USE OF THIS SOFTWARE, EVEN IF ADVISED OF THE
 * POSSIBILITY OF SUCH DAMAGE.
 *
 ****************************************************************************/

#ifndef UTILITY_CRC32_JAMCRC_H_
#define UTILITY_CRC32_JAMCRC_H_

#include ""typedefs.h""

/**
 * @brief Calculates the CRC-32 checksum using the polynomial (0x4C11DB7).
 *
 * This function takes a pointer to a block of data and its length, and returns
 * the CRC-32 checksum calculated using the polynomial (0x4C11DB7).
 * The checksum is returned as an unsigned 32-bit integer.
 * The calculation is performed using a lookup table for efficiency.
 *
 * @param[in] crc_data_ptr A pointer to the block of data to calculate the checksum for.
 * @param[in] crc_length The length of the data block in bytes.
 * @param[in] final_crc Set the flag to 'true' if it is the last or only operation, and 'false' for data chunks.
 * @param[in] last_crc_ptr Pointer to the last CRC value for data chunks. Shall be set to NULL_PTR if it is the first or only operation.
 *
 * @return The calculated CRC-32 checksum.
 */
uint32_t Crc32_jamcrc(
    const uint8_t* crc_data_ptr,
    uint32_t crc_length,
    bool final_crc,
    const uint32_t* last_crc_ptr
);

#endif /* UTILITY_CRC32_JAMCRC_H_ */
".

(** Inc/crc/crc32_variants/crc32_mpeg2.h *)
Definition text_crc32_mpeg2_h : string :=
"/****************************************************************************
 *
 *   Copyright (c) 2023 IMProject Development Team. All rights reserved.
 *   Authors: Igor Misic <igy1000mb@gmail.com>
 *
 * Redistribution and use in source and binary forms, with or without
 * modification, are permitted provided that the following conditions
 * are met:
 *
 * 1. Redistributions of source code must retain the above copyright
 *    notice, this list of conditions and the following disclaimer.
 * 2. Redistributions in binary form must reproduce the above copyright
 *    notice, this list of conditions and the following disclaimer in
 *    the documentation and/or other materials provided with the
 *    distribution.
 * 3. Neither the name IMProject nor the names of its contributors may be
 *    used to endorse or promote products derived from this software
 *    without specific prior written permission.
 *
 * THIS SOFTWARE IS PROVIDED BY THE COPYRIGHT HOLDERS AND CONTRIBUTORS
 * ""AS IS"" AND ANY EXPRESS OR IMPLIED WARRANTIES, INCLUDING, BUT NOT
 * LIMITED TO, THE IMPLIED WARRANTIES OF MERCHANTABILITY AND FITNESS
 * FOR A PARTICULAR PURPOSE ARE DISCLAIMED. IN NO EVENT SHALL THE
 * COPYRIGHT OWNER OR CONTRIBUTORS BE LIABLE FOR ANY DIRECT, INDIRECT,
 * INCIDENTAL, SPECIAL, EXEMPLARY, OR CONSEQUENTIAL DAMAGES (INCLUDING,
 * BUT NOT LIMITED TO, PROCUREMENT OF SUBSTITUTE GOODS OR SERVICES; LOSS
 * OF USE, DATA, OR PROFITS; OR BUSINESS INTERRUPTION) HOWEVER CAUSED
 * AND ON ANY THEORY OF LIABILITY, WHETHER IN CONTRACT, STRICT
 * LIABILITY, OR TORT (INCLUDING NEGLIGENCE OR OTHERWISE) ARISING IN
 * ANY WAY OUT OF THE USE OF THIS SOFTWARE, EVEN IF ADVISED OF THE
 * POSSIBILITY OF SUCH DAMAGE.
 *
 ****************************************************************************/

#ifndef UTILITY_CRC32_MPEG2_H_
#define UTILITY_CRC32_MPEG2_H_

#include ""typedefs.h""

/**
 * @brief Calculates the CRC-32 checksum using the polynomial (0x4C11DB7).
 *
 * This function takes a pointer to a block of data and its length, and returns
 * the CRC-32 checksum calculated using the polynomial (0x4C11DB7).
 * The CRC32_MPEG2 function will not perform reflection on its input and output data.
 * The checksum is returned as an unsigned 32-bit integer.
 * The calculation is performed using a lookup table for efficiency.
 *
 * @param[in] crc_data_ptr A pointer to the block of data to calculate the checksum for.
 * @param[in] crc_length The length of the data block in bytes.
 * @param[in] last_crc_ptr Pointer to the last CRC value for data chunks. Shall be set to NULL_PTR if it is the first or only operation.
 *
 * @return The calculated CRC-32 checksum.
 */
uint32_t Crc32_mpeg2(
    const uint8_t* crc_data_ptr,
    uint32_t crc_length,
    const uint32_t* last_crc_ptr
);

#endif /* UTILITY_CRC32_MPEG2_H_ */
".

(** Inc/crc/crc32_variants/crc32_posix.h *)
Definition text_crc32_posix_h : string :=
"/****************************************************************************
 *
 *   Copyright (c) 2023 IMProject Development Team. All rights reserved.
 *   Authors: Igor Misic <igy1000mb@gmail.com>
 *
 * Redistribution and use in source and binary forms, with or without
 * modification, are permitted provided that the following conditions
 * are met:
 *
 * 1. Redistributions of source code must retain the above copyright
 *    notice, this list of conditions and the following disclaimer.
 * 2. Redistributions in binary form must reproduce the above copyright
 *    notice, this list of conditions and the following disclaimer in
 *    the documentation and/or other materials provided with the
 *    distribution.
 * 3. Neither the name IMProject nor the names of its contributors may be
 *    used to endorse or promote products derived from this software
 *    without specific prior written permission.
 *
 * THIS SOFTWARE IS PROVIDED BY THE COPYRIGHT HOLDERS AND CONTRIBUTORS
 * ""AS IS"" AND ANY EXPRESS OR IMPLIED WARRANTIES, INCLUDING, BUT NOT
 * LIMITED TO, THE IMPLIED WARRANTIES OF MERCHANTABILITY AND FITNESS
 * FOR A PARTICULAR PURPOSE ARE DISCLAIMED. IN NO EVENT SHALL THE
 * COPYRIGHT OWNER OR CONTRIBUTORS BE LIABLE FOR ANY DIRECT, INDIRECT,
 * INCIDENTAL, SPECIAL, EXEMPLARY, OR CONSEQUENTIAL DAMAGES (INCLUDING,
 * BUT NOT LIMITED TO, PROCUREMENT OF SUBSTITUTE GOODS OR SERVICES; LOSS
 * OF USE, DATA, OR PROFITS; OR BUSINESS INTERRUPTION) HOWEVER CAUSED
 * AND ON ANY THEORY OF LIABILITY, WHETHER IN CONTRACT, STRICT
 * LIABILITY, OR TORT (INCLUDING NEGLIGENCE OR OTHERWISE) ARISING IN
 * ANY WAY OUT OF THE USE OF THIS SOFTWARE, EVEN IF ADVISED OF THE
 * POSSIBILITY OF SUCH DAMAGE.
 *
 ****************************************************************************/

#ifndef UTILITY_CRC32_POSIX_H_
#define UTILITY_CRC32_POSIX_H_

#include ""typedefs.h""

/**
 * @brief Calculates an 32-bit CRC checksum for a block of data using polynomial (0xA833982B).
 *
 * This function calculates an 32-bit CRC checksum for the given block of data
 * using a basic algorithm that uses the polynomial (0xA833982B).
 * The 'crc_data_ptr' parameter should be a pointer to the block of data to
 * calculate the checksum for. The 'crc_length' parameter is the length of the
 * data block in bytes.The 'final_crc' parameter indicates whether to perform a final XOR operation.
 * It shall be used when calculating CRC in chunks.
 * The calculation is performed using a lookup table for efficiency.
 *
 * @param[in] crc_data_ptr A pointer to the data block to calculate the checksum for.
 * @param[in] crc_length The length of the data block in bytes.
 * @param[in] final_crc Set the flag to 'true' if it is the last or only operation, and 'false' for data chunks.
 * @param[in] last_crc_ptr Pointer to the last CRC value for data chunks. Shall be set to NULL_PTR if it is the first or only operation.
 *
 * @return The calculated CRC checksum.
 */
uint32_t Crc32_posix(
    const uint8_t* crc_data_ptr,
    uint32_t crc_length,
    bool final_crc,
    const uint32_t* last_crc_ptr
);

#endif /* UTILITY_CRC32_POSIX_H_ */
".

(** Inc/crc/crc32_variants/crc32_q.h *)
Definition text_crc32_q_h : string :=
"/****************************************************************************
 *
 *   Copyright (c) 2023 IMProject Development Team. All rights reserved.
 *   Authors: Igor Misic <igy1000mb@gmail.com>
 *
 * Redistribution and use in source and binary forms, with or without
 * modification, are permitted provided that the following conditions
 * are met:
 *
 * 1. Redistributions of source code must retain the above copyright
 *    notice, this list of conditions and the following disclaimer.
 * 2. Redistributions in binary form must reproduce the above copyright
 *    notice, this list of conditions and the following disclaimer in
 *    the documentation and/or other materials provided with the
 *    distribution.
 * 3. Neither the name IMProject nor the names of its contributors may be
 *    used to endorse or promote products derived from this software
 *    without specific prior written permission.
 *
 * THIS SOFTWARE IS PROVIDED BY THE COPYRIGHT HOLDERS AND CONTRIBUTORS
 * ""AS IS"" AND ANY EXPRESS OR IMPLIED WARRANTIES, INCLUDING, BUT NOT
 * LIMITED TO, THE IMPLIED WARRANTIES OF MERCHANTABILITY AND FITNESS
 * FOR A PARTICULAR PURPOSE ARE DISCLAIMED. IN NO EVENT SHALL THE
 * COPYRIGHT OWNER OR CONTRIBUTORS BE LIABLE FOR ANY DIRECT, INDIRECT,
 * INCIDENTAL, SPECIAL, EXEMPLARY, OR CONSEQUENTIAL DAMAGES (INCLUDING,
 * BUT NOT LIMITED TO, PROCUREMENT OF SUBSTITUTE GOODS OR SERVICES; LOSS
 * OF USE, DATA, OR PROFITS; OR BUSINESS INTERRUPTION) HOWEVER CAUSED
 * AND ON ANY THEORY OF LIABILITY, WHETHER IN CONTRACT, STRICT
 * LIABILITY, OR TORT (INCLUDING NEGLIGENCE OR OTHERWISE) ARISING IN
 * ANY WAY OUT OF THE USE OF THIS SOFTWARE, EVEN IF ADVISED OF THE
 * POSSIBILITY OF SUCH DAMAGE.
 *
 ****************************************************************************/

#ifndef UTILITY_CRC32_Q_H_
#define UTILITY_CRC32_Q_H_

#include ""typedefs.h""

/**
 * @brief Calculates the CRC-32 checksum using the polynomial (0xAF).
 *
 * This function takes a pointer to a block of data and its length, and returns
 * the CRC-32 checksum calculated using the polynomial (0x4C11DB7).
 * The CRC32_Q function will not perform reflection on its input and output data.
 * The checksum is returned as an unsigned 32-bit integer.
 * The calculation is performed using a lookup table for efficiency.
 *
 * @param[in] crc_data_ptr A pointer to the block of data to calculate the checksum for.
 * @param[in] crc_length The length of the data block in bytes.
 * @param[in] last_crc_ptr Pointer to the last CRC value for data chunks. Shall be set to NULL_PTR if it is the first or only operation.
 *
 * @return The calculated CRC-32 checksum.
 */
uint32_t Crc32_q(
    const uint8_t* crc_data_ptr,
    uint32_t crc_length,
    const uint32_t* last_crc_ptr
);

#endif /* UTILITY_CRC32_Q_H_ */
".

(** Inc/crc/crc32_variants/crc32_xfer.h *)
Definition text_crc32_xfer_h : string :=
"/****************************************************************************
 *
 *   Copyright (c) 2023 IMProject Development Team. All rights reserved.
 *   Authors: Igor Misic <igy1000mb@gmail.com>
 *
 * Redistribution and use in source and binary forms, with or without
 * modification, are permitted provided that the following conditions
 * are met:
 *
 * 1. Redistributions of source code must retain the above copyright
 *    notice, this list of conditions and the following disclaimer.
 * 2. Redistributions in binary form must reproduce the above copyright
 *    notice, this list of conditions and the following disclaimer in
 *    the documentation and/or other materials provided with the
 *    distribution.
 * 3. Neither the name IMProject nor the names of its contributors may be
 *    used to endorse or promote products derived from this software
 *    without specific prior written permission.
 *
 * THIS SOFTWARE IS PROVIDED BY THE COPYRIGHT HOLDERS AND CONTRIBUTORS
 * ""AS IS"" AND ANY EXPRESS OR IMPLIED WARRANTIES, INCLUDING, BUT NOT
 * LIMITED TO, THE IMPLIED WARRANTIES OF MERCHANTABILITY AND FITNESS
 * FOR A PARTICULAR PURPOSE ARE DISCLAIMED. IN NO EVENT SHALL THE
 * COPYRIGHT OWNER OR CONTRIBUTORS BE LIABLE FOR ANY DIRECT, INDIRECT,
 * INCIDENTAL, SPECIAL, EXEMPLARY, OR CONSEQUENTIAL DAMAGES (INCLUDING,
 * BUT NOT LIMITED TO, PROCUREMENT OF SUBSTITUTE GOODS OR SERVICES; LOSS
 * OF USE, DATA, OR PROFITS; OR BUSINESS INTERRUPTION) HOWEVER CAUSED
 * AND ON ANY THEORY OF LIABILITY, WHETHER IN CONTRACT, STRICT
 * LIABILITY, OR TORT (INCLUDING NEGLIGENCE OR OTHERWISE) ARISING IN
 * ANY WAY OUT OF THE USE OF THIS SOFTWARE, EVEN IF ADVISED OF THE
 * POSSIBILITY OF SUCH DAMAGE.
 *
 ****************************************************************************/

#ifndef UTILITY_CRC32_XFER_H_
#define UTILITY_CRC32_XFER_H_

#include ""typedefs.h""

/**
 * @brief Calculates the CRC-32 checksum using the polynomial (0x4C11DB7).
 *
 * This function takes a pointer to a block of data and its length, and returns
 * the CRC-32 checksum calculated using the polynomial (0x4C11DB7).
 * The CRC32_XFER function will not perform reflection on its input and output data.
 * The checksum is returned as an unsigned 32-bit integer.
 * The calculation is performed using a lookup table for efficiency.
 *
 * @param[in] crc_data_ptr A pointer to the block of data to calculate the checksum for.
 * @param[in] crc_length The length of the data block in bytes.
 * @param[in] last_crc_ptr Pointer to the last CRC value for data chunks. Shall be set to NULL_PTR if it is the first or only operation.
 *
 * @return The calculated CRC-32 checksum.
 */
uint32_t Crc32_xfer(
    const uint8_t* crc_data_ptr,
    uint32_t crc_length,
    const uint32_t* last_crc_ptr
);

#endif /* UTILITY_CRC32_XFER_H_ */
".

(** the files by name *)
Definition text_headerscrc : list (string * string) :=
  (("crc8.h", text_crc8_h)
   :: ("crc8_8h2f.h", text_crc8_8h2f_h)
   :: ("crc8_cdma2000.h", text_crc8_cdma2000_h)
   :: ("crc8_darc.h", text_crc8_darc_h)
   :: ("crc8_dvb_s2.h", text_crc8_dvb_s2_h)
   :: ("crc8_ebu.h", text_crc8_ebu_h)
   :: ("crc8_icode.h", text_crc8_icode_h)
   :: ("crc8_itu.h", text_crc8_itu_h)
   :: ("crc8_maxim.h", text_crc8_maxim_h)
   :: ("crc8_rohc.h", text_crc8_rohc_h)
   :: ("crc8_sae_j1850.h", text_crc8_sae_j1850_h)
   :: ("crc8_sae_j1850_zero.h", text_crc8_sae_j1850_zero_h)
   :: ("crc8_wcdma.h", text_crc8_wcdma_h)
   :: ("crc16_a.h", text_crc16_a_h)
   :: ("crc16_arc.h", text_crc16_arc_h)
   :: ("crc16_aug_ccit.h", text_crc16_aug_ccit_h)
   :: ("crc16_buypass.h", text_crc16_buypass_h)
   :: ("crc16_ccit_false.h", text_crc16_ccit_false_h)
   :: ("crc16_ccit_zero.h", text_crc16_ccit_zero_h)
   :: ("crc16_cdma2000.h", text_crc16_cdma2000_h)
   :: ("crc16_dds110.h", text_crc16_dds110_h)
   :: ("crc16_dect_r.h", text_crc16_dect_r_h)
   :: ("crc16_dect_x.h", text_crc16_dect_x_h)
   :: ("crc16_dnp.h", text_crc16_dnp_h)
   :: ("crc16_en_13757.h", text_crc16_en_13757_h)
   :: ("crc16_genibus.h", text_crc16_genibus_h)
   :: ("crc16_kermit.h", text_crc16_kermit_h)
   :: ("crc16_maxim.h", text_crc16_maxim_h)
   :: ("crc16_mcrf4xx.h", text_crc16_mcrf4xx_h)
   :: ("crc16_modbus.h", text_crc16_modbus_h)
   :: ("crc16_riello.h", text_crc16_riello_h)
   :: ("crc16_t10_dif.h", text_crc16_t10_dif_h)
   :: ("crc16_teledisk.h", text_crc16_teledisk_h)
   :: ("crc16_tms37157.h", text_crc16_tms37157_h)
   :: ("crc16_usb.h", text_crc16_usb_h)
   :: ("crc16_x_25.h", text_crc16_x_25_h)
   :: ("crc32.h", text_crc32_h)
   :: ("crc32_bzip2.h", text_crc32_bzip2_h)
   :: ("crc32_c.h", text_crc32_c_h)
   :: ("crc32_d.h", text_crc32_d_h)
   :: ("crc32_jamcrc.h", text_crc32_jamcrc_h)
   :: ("crc32_mpeg2.h", text_crc32_mpeg2_h)
   :: ("crc32_posix.h", text_crc32_posix_h)
   :: ("crc32_q.h", text_crc32_q_h)
   :: ("crc32_xfer.h", text_crc32_xfer_h)
   :: nil)%list.
