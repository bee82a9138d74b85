(** * The text of files in [/repo/Src]

    Copied by [/verif/tools/embed.py], which changes nothing but writes each double quote twice
    (that is how Coq writes one inside a string); [embed.py --check] compares. *)
From Coq Require Import String.
Local Open Scope string_scope.

(** Src/crc/crc32_variants/crc32.c *)
Definition text_crc32_c : string :=
"/****************************************************************************
 *
 *   Copyright (c) 2021 - 2023 IMProject Development Team. All rights reserved.
 *   Authors: Igor Misic <igy1000mb@gmail.com>
 *
 * Redistribution and use in source and binary forms, with or without
 * modification, are permitted provided that the following conditions
 * are met:
 *
 * 1. Redistributions of source code must retain the above copyright
 *    notice, this list of conditions and the following disclaimer.
 * 2. Redistributions in binary form must reproduce the above copyright
 *    notice, this list of conditions and the following disclaimer in
 *    the documentation and/or other materials provided with the
 *    distribution.
 * 3. Neither the name IMProject nor the names of its contributors may be
 *    used to endorse or promote products derived from this software
 *    without specific prior written permission.
 *
 * THIS SOFTWARE IS PROVIDED BY THE COPYRIGHT HOLDERS AND CONTRIBUTORS
 * ""AS IS"" AND ANY EXPRESS OR IMPLIED WARRANTIES, INCLUDING, BUT NOT
 * LIMITED TO, THE IMPLIED WARRANTIES OF MERCHANTABILITY AND FITNESS
 * FOR A PARTICULAR PURPOSE ARE DISCLAIMED. IN NO EVENT SHALL THE
 * COPYRIGHT OWNER OR CONTRIBUTORS BE LIABLE FOR ANY DIRECT, INDIRECT,
 * INCIDENTAL, SPECIAL, EXEMPLARY, OR CONSEQUENTIAL DAMAGES (INCLUDING,
 * BUT NOT LIMITED TO, PROCUREMENT OF SUBSTITUTE GOODS OR SERVICES; LOSS
 * OF USE, DATA, OR PROFITS; OR BUSINESS INTERRUPTION) HOWEVER CAUSED
 * AND ON ANY THEORY OF LIABILITY, WHETHER IN CONTRACT, STRICT
 * LIABILITY, OR TORT (INCLUDING NEGLIGENCE OR OTHERWISE) ARISING IN
 * ANY WAY OUT OF THE USE OF THIS SOFTWARE, EVEN IF ADVISED OF THE
 * POSSIBILITY OF SUCH DAMAGE.
 *
 ****************************************************************************/

#include ""crc32.h""

#include ""crc32_base.h""

#define INITIAL_CRC32_VALUE (0xFFFFFFFFU)
#define FINAL_XOR_VALUE (0xFFFFFFFFU)
#define REFLECTED_OUTPUT (true)
#define REFLECTED_INPUT (true)
#define FINAL_XOR (true)

uint32_t
Crc32(
    const uint8_t* crc_data_ptr,
    uint32_t crc_length,
    bool final_crc,
    const uint32_t* last_crc_ptr) {

    /* CRC32 also know as Ethernet CRC (Polynomial 0x4C11DB7) */
    static const uint32_t crc_table[256] = {
        0x00000000U, 0x04C11DB7U, 0x09823B6EU, 0x0D4326D9U, 0x130476DCU, 0x17C56B6BU, 0x1A864DB2U, 0x1E475005U,
        0x2608EDB8U, 0x22C9F00FU, 0x2F8AD6D6U, 0x2B4BCB61U, 0x350C9B64U, 0x31CD86D3U, 0x3C8EA00AU, 0x384FBDBDU,
        0x4C11DB70U, 0x48D0C6C7U, 0x4593E01EU, 0x4152FDA9U, 0x5F15ADACU, 0x5BD4B01BU, 0x569796C2U, 0x52568B75U,
        0x6A1936C8U, 0x6ED82B7FU, 0x639B0DA6U, 0x675A1011U, 0x791D4014U, 0x7DDC5DA3U, 0x709F7B7AU, 0x745E66CDU,
        0x9823B6E0U, 0x9CE2AB57U, 0x91A18D8EU, 0x95609039U, 0x8B27C03CU, 0x8FE6DD8BU, 0x82A5FB52U, 0x8664E6E5U,
        0xBE2B5B58U, 0xBAEA46EFU, 0xB7A96036U, 0xB3687D81U, 0xAD2F2D84U, 0xA9EE3033U, 0xA4AD16EAU, 0xA06C0B5DU,
        0xD4326D90U, 0xD0F37027U, 0xDDB056FEU, 0xD9714B49U, 0xC7361B4CU, 0xC3F706FBU, 0xCEB42022U, 0xCA753D95U,
        0xF23A8028U, 0xF6FB9D9FU, 0xFBB8BB46U, 0xFF79A6F1U, 0xE13EF6F4U, 0xE5FFEB43U, 0xE8BCCD9AU, 0xEC7DD02DU,
        0x34867077U, 0x30476DC0U, 0x3D044B19U, 0x39C556AEU, 0x278206ABU, 0x23431B1CU, 0x2E003DC5U, 0x2AC12072U,
        0x128E9DCFU, 0x164F8078U, 0x1B0CA6A1U, 0x1FCDBB16U, 0x018AEB13U, 0x054BF6A4U, 0x0808D07DU, 0x0CC9CDCAU,
        0x7897AB07U, 0x7C56B6B0U, 0x71159069U, 0x75D48DDEU, 0x6B93DDDBU, 0x6F52C06CU, 0x6211E6B5U, 0x66D0FB02U,
        0x5E9F46BFU, 0x5A5E5B08U, 0x571D7DD1U, 0x53DC6066U, 0x4D9B3063U, 0x495A2DD4U, 0x44190B0DU, 0x40D816BAU,
        0xACA5C697U, 0xA864DB20U, 0xA527FDF9U, 0xA1E6E04EU, 0xBFA1B04BU, 0xBB60ADFCU, 0xB6238B25U, 0xB2E29692U,
        0x8AAD2B2FU, 0x8E6C3698U, 0x832F1041U, 0x87EE0DF6U, 0x99A95DF3U, 0x9D684044U, 0x902B669DU, 0x94EA7B2AU,
        0xE0B41DE7U, 0xE4750050U, 0xE9362689U, 0xEDF73B3EU, 0xF3B06B3BU, 0xF771768CU, 0xFA325055U, 0xFEF34DE2U,
        0xC6BCF05FU, 0xC27DEDE8U, 0xCF3ECB31U, 0xCBFFD686U, 0xD5B88683U, 0xD1799B34U, 0xDC3ABDEDU, 0xD8FBA05AU,
        0x690CE0EEU, 0x6DCDFD59U, 0x608EDB80U, 0x644FC637U, 0x7A089632U, 0x7EC98B85U, 0x738AAD5CU, 0x774BB0EBU,
        0x4F040D56U, 0x4BC510E1U, 0x46863638U, 0x42472B8FU, 0x5C007B8AU, 0x58C1663DU, 0x558240E4U, 0x51435D53U,
        0x251D3B9EU, 0x21DC2629U, 0x2C9F00F0U, 0x285E1D47U, 0x36194D42U, 0x32D850F5U, 0x3F9B762CU, 0x3B5A6B9BU,
        0x0315D626U, 0x07D4CB91U, 0x0A97ED48U, 0x0E56F0FFU, 0x1011A0FAU, 0x14D0BD4DU, 0x19939B94U, 0x1D528623U,
        0xF12F560EU, 0xF5EE4BB9U, 0xF8AD6D60U, 0xFC6C70D7U, 0xE22B20D2U, 0xE6EA3D65U, 0xEBA91BBCU, 0xEF68060BU,
        0xD727BBB6U, 0xD3E6A601U, 0xDEA580D8U, 0xDA649D6FU, 0xC423CD6AU, 0xC0E2D0DDU, 0xCDA1F604U, 0xC960EBB3U,
        0xBD3E8D7EU, 0xB9FF90C9U, 0xB4BCB610U, 0xB07DABA7U, 0xAE3AFBA2U, 0xAAFBE615U, 0xA7B8C0CCU, 0xA379DD7BU,
        0x9B3660C6U, 0x9FF77D71U, 0x92B45BA8U, 0x9675461FU, 0x8832161AU, 0x8CF30BADU, 0x81B02D74U, 0x857130C3U,
        0x5D8A9099U, 0x594B8D2EU, 0x5408ABF7U, 0x50C9B640U, 0x4E8EE645U, 0x4A4FFBF2U, 0x470CDD2BU, 0x43CDC09CU,
        0x7B827D21U, 0x7F436096U, 0x7200464FU, 0x76C15BF8U, 0x68860BFDU, 0x6C47164AU, 0x61043093U, 0x65C52D24U,
        0x119B4BE9U, 0x155A565EU, 0x18197087U, 0x1CD86D30U, 0x029F3D35U, 0x065E2082U, 0x0B1D065BU, 0x0FDC1BECU,
        0x3793A651U, 0x3352BBE6U, 0x3E119D3FU, 0x3AD08088U, 0x2497D08DU, 0x2056CD3AU, 0x2D15EBE3U, 0x29D4F654U,
        0xC5A92679U, 0xC1683BCEU, 0xCC2B1D17U, 0xC8EA00A0U, 0xD6AD50A5U, 0xD26C4D12U, 0xDF2F6BCBU, 0xDBEE767CU,
        0xE3A1CBC1U, 0xE760D676U, 0xEA23F0AFU, 0xEEE2ED18U, 0xF0A5BD1DU, 0xF464A0AAU, 0xF9278673U, 0xFDE69BC4U,
        0x89B8FD09U, 0x8D79E0BEU, 0x803AC667U, 0x84FBDBD0U, 0x9ABC8BD5U, 0x9E7D9662U, 0x933EB0BBU, 0x97FFAD0CU,
        0xAFB010B1U, 0xAB710D06U, 0xA6322BDFU, 0xA2F33668U, 0xBCB4666DU, 0xB8757BDAU, 0xB5365D03U, 0xB1F740B4U
    };

    bool reflect_output = false;
    bool final_xor = false;
    uint32_t crc_initial_value = INITIAL_CRC32_VALUE;

    if (NULL_PTR != last_crc_ptr) {
        crc_initial_value = *last_crc_ptr;
    }

    if (final_crc) {
        reflect_output = REFLECTED_OUTPUT;
        final_xor = FINAL_XOR;
    }

    return Crc32Base(
               crc_table,
               crc_data_ptr,
               crc_length,
               crc_initial_value,
               FINAL_XOR_VALUE,
               reflect_output,
               REFLECTED_INPUT,
               final_xor
           );
}
".

(** Src/crc/crc32_variants/crc32_bzip2.c *)
Definition text_crc32_bzip2_c : string :=
"/****************************************************************************
 *
 *   Copyright (c) 2023 IMProject Development Team. All rights reserved.
 *   Authors: Igor Misic <igy1000mb@gmail.com>
 *
 * Redistribution and use in source and binary forms, with or without
 * modification, are permitted provided that the following conditions
 * are met:
 *
 * 1. Redistributions of source code must retain the above copyright
 *    notice, this list of conditions and the following disclaimer.
 * 2. Redistributions in binary form must reproduce the above copyright
 *    notice, this list of conditions and the following disclaimer in
 *    the documentation and/or other materials provided with the
 *    distribution.
 * 3. Neither the name IMProject nor the names of its contributors may be
 *    used to endorse or promote products derived from this software
 *    without specific prior written permission.
 *
 * THIS SOFTWARE IS PROVIDED BY THE COPYRIGHT HOLDERS AND CONTRIBUTORS
 * ""AS IS"" AND ANY EXPRESS OR IMPLIED WARRANTIES, INCLUDING, BUT NOT
 * LIMITED TO, THE IMPLIED WARRANTIES OF MERCHANTABILITY AND FITNESS
 * FOR A PARTICULAR PURPOSE ARE DISCLAIMED. IN NO EVENT SHALL THE
 * COPYRIGHT OWNER OR CONTRIBUTORS BE LIABLE FOR ANY DIRECT, INDIRECT,
 * INCIDENTAL, SPECIAL, EXEMPLARY, OR CONSEQUENTIAL DAMAGES (INCLUDING,
 * BUT NOT LIMITED TO, PROCUREMENT OF SUBSTITUTE GOODS OR SERVICES; LOSS
 * OF USE, DATA, OR PROFITS; OR BUSINESS INTERRUPTION) HOWEVER CAUSED
 * AND ON ANY THEORY OF LIABILITY, WHETHER IN CONTRACT, STRICT
 * LIABILITY, OR TORT (INCLUDING NEGLIGENCE OR OTHERWISE) ARISING IN
 * ANY WAY OUT OF THE USE OF THIS SOFTWARE, EVEN IF ADVISED OF THE
 * POSSIBILITY OF SUCH DAMAGE.
 *
 ****************************************************************************/

#include ""crc32_bzip2.h""

#include ""crc32_base.h""

#define INITIAL_CRC32_VALUE (0xFFFFFFFFU)
#define FINAL_XOR_VALUE (0xFFFFFFFFU)
#define REFLECTED_OUTPUT (false)
#define REFLECTED_INPUT (false)
#define FINAL_XOR (true)

uint32_t
Crc32_bzip2(
    const uint8_t* crc_data_ptr,
    uint32_t crc_length,
    bool final_crc,
    const uint32_t* last_crc_ptr) {

    /* CRC32-BZIP2 (Polynomial 0x4C11DB7) */
    static const uint32_t crc_table[256] = {
        0x00000000U, 0x04C11DB7U, 0x09823B6EU, 0x0D4326D9U, 0x130476DCU, 0x17C56B6BU, 0x1A864DB2U, 0x1E475005U,
        0x2608EDB8U, 0x22C9F00FU, 0x2F8AD6D6U, 0x2B4BCB61U, 0x350C9B64U, 0x31CD86D3U, 0x3C8EA00AU, 0x384FBDBDU,
        0x4C11DB70U, 0x48D0C6C7U, 0x4593E01EU, 0x4152FDA9U, 0x5F15ADACU, 0x5BD4B01BU, 0x569796C2U, 0x52568B75U,
        0x6A1936C8U, 0x6ED82B7FU, 0x639B0DA6U, 0x675A1011U, 0x791D4014U, 0x7DDC5DA3U, 0x709F7B7AU, 0x745E66CDU,
        0x9823B6E0U, 0x9CE2AB57U, 0x91A18D8EU, 0x95609039U, 0x8B27C03CU, 0x8FE6DD8BU, 0x82A5FB52U, 0x8664E6E5U,
        0xBE2B5B58U, 0xBAEA46EFU, 0xB7A96036U, 0xB3687D81U, 0xAD2F2D84U, 0xA9EE3033U, 0xA4AD16EAU, 0xA06C0B5DU,
        0xD4326D90U, 0xD0F37027U, 0xDDB056FEU, 0xD9714B49U, 0xC7361B4CU, 0xC3F706FBU, 0xCEB42022U, 0xCA753D95U,
        0xF23A8028U, 0xF6FB9D9FU, 0xFBB8BB46U, 0xFF79A6F1U, 0xE13EF6F4U, 0xE5FFEB43U, 0xE8BCCD9AU, 0xEC7DD02DU,
        0x34867077U, 0x30476DC0U, 0x3D044B19U, 0x39C556AEU, 0x278206ABU, 0x23431B1CU, 0x2E003DC5U, 0x2AC12072U,
        0x128E9DCFU, 0x164F8078U, 0x1B0CA6A1U, 0x1FCDBB16U, 0x018AEB13U, 0x054BF6A4U, 0x0808D07DU, 0x0CC9CDCAU,
        0x7897AB07U, 0x7C56B6B0U, 0x71159069U, 0x75D48DDEU, 0x6B93DDDBU, 0x6F52C06CU, 0x6211E6B5U, 0x66D0FB02U,
        0x5E9F46BFU, 0x5A5E5B08U, 0x571D7DD1U, 0x53DC6066U, 0x4D9B3063U, 0x495A2DD4U, 0x44190B0DU, 0x40D816BAU,
        0xACA5C697U, 0xA864DB20U, 0xA527FDF9U, 0xA1E6E04EU, 0xBFA1B04BU, 0xBB60ADFCU, 0xB6238B25U, 0xB2E29692U,
        0x8AAD2B2FU, 0x8E6C3698U, 0x832F1041U, 0x87EE0DF6U, 0x99A95DF3U, 0x9D684044U, 0x902B669DU, 0x94EA7B2AU,
        0xE0B41DE7U, 0xE4750050U, 0xE9362689U, 0xEDF73B3EU, 0xF3B06B3BU, 0xF771768CU, 0xFA325055U, 0xFEF34DE2U,
        0xC6BCF05FU, 0xC27DEDE8U, 0xCF3ECB31U, 0xCBFFD686U, 0xD5B88683U, 0xD1799B34U, 0xDC3ABDEDU, 0xD8FBA05AU,
        0x690CE0EEU, 0x6DCDFD59U, 0x608EDB80U, 0x644FC637U, 0x7A089632U, 0x7EC98B85U, 0x738AAD5CU, 0x774BB0EBU,
        0x4F040D56U, 0x4BC510E1U, 0x46863638U, 0x42472B8FU, 0x5C007B8AU, 0x58C1663DU, 0x558240E4U, 0x51435D53U,
        0x251D3B9EU, 0x21DC2629U, 0x2C9F00F0U, 0x285E1D47U, 0x36194D42U, 0x32D850F5U, 0x3F9B762CU, 0x3B5A6B9BU,
        0x0315D626U, 0x07D4CB91U, 0x0A97ED48U, 0x0E56F0FFU, 0x1011A0FAU, 0x14D0BD4DU, 0x19939B94U, 0x1D528623U,
        0xF12F560EU, 0xF5EE4BB9U, 0xF8AD6D60U, 0xFC6C70D7U, 0xE22B20D2U, 0xE6EA3D65U, 0xEBA91BBCU, 0xEF68060BU,
        0xD727BBB6U, 0xD3E6A601U, 0xDEA580D8U, 0xDA649D6FU, 0xC423CD6AU, 0xC0E2D0DDU, 0xCDA1F604U, 0xC960EBB3U,
        0xBD3E8D7EU, 0xB9FF90C9U, 0xB4BCB610U, 0xB07DABA7U, 0xAE3AFBA2U, 0xAAFBE615U, 0xA7B8C0CCU, 0xA379DD7BU,
        0x9B3660C6U, 0x9FF77D71U, 0x92B45BA8U, 0x9675461FU, 0x8832161AU, 0x8CF30BADU, 0x81B02D74U, 0x857130C3U,
        0x5D8A9099U, 0x594B8D2EU, 0x5408ABF7U, 0x50C9B640U, 0x4E8EE645U, 0x4A4FFBF2U, 0x470CDD2BU, 0x43CDC09CU,
        0x7B827D21U, 0x7F436096U, 0x7200464FU, 0x76C15BF8U, 0x68860BFDU, 0x6C47164AU, 0x61043093U, 0x65C52D24U,
        0x119B4BE9U, 0x155A565EU, 0x18197087U, 0x1CD86D30U, 0x029F3D35U, 0x065E2082U, 0x0B1D065BU, 0x0FDC1BECU,
        0x3793A651U, 0x3352BBE6U, 0x3E119D3FU, 0x3AD08088U, 0x2497D08DU, 0x2056CD3AU, 0x2D15EBE3U, 0x29D4F654U,
        0xC5A92679U, 0xC1683BCEU, 0xCC2B1D17U, 0xC8EA00A0U, 0xD6AD50A5U, 0xD26C4D12U, 0xDF2F6BCBU, 0xDBEE767CU,
        0xE3A1CBC1U, 0xE760D676U, 0xEA23F0AFU, 0xEEE2ED18U, 0xF0A5BD1DU, 0xF464A0AAU, 0xF9278673U, 0xFDE69BC4U,
        0x89B8FD09U, 0x8D79E0BEU, 0x803AC667U, 0x84FBDBD0U, 0x9ABC8BD5U, 0x9E7D9662U, 0x933EB0BBU, 0x97FFAD0CU,
        0xAFB010B1U, 0xAB710D06U, 0xA6322BDFU, 0xA2F33668U, 0xBCB4666DU, 0xB8757BDAU, 0xB5365D03U, 0xB1F740B4U
    };

    bool final_xor = false;
    uint32_t crc_initial_value = INITIAL_CRC32_VALUE;

    if (NULL_PTR != last_crc_ptr) {
        crc_initial_value = *last_crc_ptr;
    }

    if (final_crc) {
        final_xor = FINAL_XOR;
    }

    return Crc32Base(
               crc_table,
               crc_data_ptr,
               crc_length,
               crc_initial_value,
               FINAL_XOR_VALUE,
               REFLECTED_OUTPUT,
               REFLECTED_INPUT,
               final_xor
           );
}
".

(** Src/crc/crc32_variants/crc32_c.c *)
Definition text_crc32_c_c : string :=
"/****************************************************************************
 *
 *   Copyright (c) 2023 IMProject Development Team. All rights reserved.
 *   Authors: Igor Misic <igy1000mb@gmail.com>
 *
 * Redistribution and use in source and binary forms, with or without
 * modification, are permitted provided that the following conditions
 * are met:
 *
 * 1. Redistributions of source code must retain the above copyright
 *    notice, this list of conditions and the following disclaimer.
 * 2. Redistributions in binary form must reproduce the above copyright
 *    notice, this list of conditions and the following disclaimer in
 *    the documentation and/or other materials provided with the
 *    distribution.
 * 3. Neither the name IMProject nor the names of its contributors may be
 *    used to endorse or promote products derived from this software
 *    without specific prior written permission.
 *
 * THIS SOFTWARE IS PROVIDED BY THE COPYRIGHT HOLDERS AND CONTRIBUTORS
 * ""AS IS"" AND ANY EXPRESS OR IMPLIED WARRANTIES, INCLUDING, BUT NOT
 * LIMITED TO, THE IMPLIED WARRANTIES OF MERCHANTABILITY AND FITNESS
 * FOR A PARTICULAR PURPOSE ARE DISCLAIMED. IN NO EVENT SHALL THE
 * COPYRIGHT OWNER OR CONTRIBUTORS BE LIABLE FOR ANY DIRECT, INDIRECT,
 * INCIDENTAL, SPECIAL, EXEMPLARY, OR CONSEQUENTIAL DAMAGES (INCLUDING,
 * BUT NOT LIMITED TO, PROCUREMENT OF SUBSTITUTE GOODS OR SERVICES; LOSS
 * OF USE, DATA, OR PROFITS; OR BUSINESS INTERRUPTION) HOWEVER CAUSED
 * AND ON ANY THEORY OF LIABILITY, WHETHER IN CONTRACT, STRICT
 * LIABILITY, OR TORT (INCLUDING NEGLIGENCE OR OTHERWISE) ARISING IN
 * ANY WAY OUT OF THE USE OF THIS SOFTWARE, EVEN IF ADVISED OF THE
 * POSSIBILITY OF SUCH DAMAGE.
 *
 ****************************************************************************/

#include ""crc32_c.h""

#include ""crc32_base.h""

#define INITIAL_CRC32_VALUE (0xFFFFFFFFU)
#define FINAL_XOR_VALUE (0xFFFFFFFFU)
#define REFLECTED_OUTPUT (true)
#define REFLECTED_INPUT (true)
#define FINAL_XOR (true)

uint32_t
Crc32_c(
    const uint8_t* crc_data_ptr,
    uint32_t crc_length,
    bool final_crc,
    const uint32_t* last_crc_ptr) {

    /* CRC32-C (Castagnoli) (Polynomial 0x1EDC6F41) */
    static const uint32_t crc_table[256] = {
        0x00000000U, 0x1EDC6F41U, 0x3DB8DE82U, 0x2364B1C3U, 0x7B71BD04U, 0x65ADD245U, 0x46C96386U, 0x58150CC7U,
        0xF6E37A08U, 0xE83F1549U, 0xCB5BA48AU, 0xD587CBCBU, 0x8D92C70CU, 0x934EA84DU, 0xB02A198EU, 0xAEF676CFU,
        0xF31A9B51U, 0xEDC6F410U, 0xCEA245D3U, 0xD07E2A92U, 0x886B2655U, 0x96B74914U, 0xB5D3F8D7U, 0xAB0F9796U,
        0x05F9E159U, 0x1B258E18U, 0x38413FDBU, 0x269D509AU, 0x7E885C5DU, 0x6054331CU, 0x433082DFU, 0x5DECED9EU,
        0xF8E959E3U, 0xE63536A2U, 0xC5518761U, 0xDB8DE820U, 0x8398E4E7U, 0x9D448BA6U, 0xBE203A65U, 0xA0FC5524U,
        0x0E0A23EBU, 0x10D64CAAU, 0x33B2FD69U, 0x2D6E9228U, 0x757B9EEFU, 0x6BA7F1AEU, 0x48C3406DU, 0x561F2F2CU,
        0x0BF3C2B2U, 0x152FADF3U, 0x364B1C30U, 0x28977371U, 0x70827FB6U, 0x6E5E10F7U, 0x4D3AA134U, 0x53E6CE75U,
        0xFD10B8BAU, 0xE3CCD7FBU, 0xC0A86638U, 0xDE740979U, 0x866105BEU, 0x98BD6AFFU, 0xBBD9DB3CU, 0xA505B47DU,
        0xEF0EDC87U, 0xF1D2B3C6U, 0xD2B60205U, 0xCC6A6D44U, 0x947F6183U, 0x8AA30EC2U, 0xA9C7BF01U, 0xB71BD040U,
        0x19EDA68FU, 0x0731C9CEU, 0x2455780DU, 0x3A89174CU, 0x629C1B8BU, 0x7C4074CAU, 0x5F24C509U, 0x41F8AA48U,
        0x1C1447D6U, 0x02C82897U, 0x21AC9954U, 0x3F70F615U, 0x6765FAD2U, 0x79B99593U, 0x5ADD2450U, 0x44014B11U,
        0xEAF73DDEU, 0xF42B529FU, 0xD74FE35CU, 0xC9938C1DU, 0x918680DAU, 0x8F5AEF9BU, 0xAC3E5E58U, 0xB2E23119U,
        0x17E78564U, 0x093BEA25U, 0x2A5F5BE6U, 0x348334A7U, 0x6C963860U, 0x724A5721U, 0x512EE6E2U, 0x4FF289A3U,
        0xE104FF6CU, 0xFFD8902DU, 0xDCBC21EEU, 0xC2604EAFU, 0x9A754268U, 0x84A92D29U, 0xA7CD9CEAU, 0xB911F3ABU,
        0xE4FD1E35U, 0xFA217174U, 0xD945C0B7U, 0xC799AFF6U, 0x9F8CA331U, 0x8150CC70U, 0xA2347DB3U, 0xBCE812F2U,
        0x121E643DU, 0x0CC20B7CU, 0x2FA6BABFU, 0x317AD5FEU, 0x696FD939U, 0x77B3B678U, 0x54D707BBU, 0x4A0B68FAU,
        0xC0C1D64FU, 0xDE1DB90EU, 0xFD7908CDU, 0xE3A5678CU, 0xBBB06B4BU, 0xA56C040AU, 0x8608B5C9U, 0x98D4DA88U,
        0x3622AC47U, 0x28FEC306U, 0x0B9A72C5U, 0x15461D84U, 0x4D531143U, 0x538F7E02U, 0x70EBCFC1U, 0x6E37A080U,
        0x33DB4D1EU, 0x2D07225FU, 0x0E63939CU, 0x10BFFCDDU, 0x48AAF01AU, 0x56769F5BU, 0x75122E98U, 0x6BCE41D9U,
        0xC5383716U, 0xDBE45857U, 0xF880E994U, 0xE65C86D5U, 0xBE498A12U, 0xA095E553U, 0x83F15490U, 0x9D2D3BD1U,
        0x38288FACU, 0x26F4E0EDU, 0x0590512EU, 0x1B4C3E6FU, 0x435932A8U, 0x5D855DE9U, 0x7EE1EC2AU, 0x603D836BU,
        0xCECBF5A4U, 0xD0179AE5U, 0xF3732B26U, 0xEDAF4467U, 0xB5BA48A0U, 0xAB6627E1U, 0x88029622U, 0x96DEF963U,
        0xCB3214FDU, 0xD5EE7BBCU, 0xF68ACA7FU, 0xE856A53EU, 0xB043A9F9U, 0xAE9FC6B8U, 0x8DFB777BU, 0x9327183AU,
        0x3DD16EF5U, 0x230D01B4U, 0x0069B077U, 0x1EB5DF36U, 0x46A0D3F1U, 0x587CBCB0U, 0x7B180D73U, 0x65C46232U,
        0x2FCF0AC8U, 0x31136589U, 0x1277D44AU, 0x0CABBB0BU, 0x54BEB7CCU, 0x4A62D88DU, 0x6906694EU, 0x77DA060FU,
        0xD92C70C0U, 0xC7F01F81U, 0xE494AE42U, 0xFA48C103U, 0xA25DCDC4U, 0xBC81A285U, 0x9FE51346U, 0x81397C07U,
        0xDCD59199U, 0xC209FED8U, 0xE16D4F1BU, 0xFFB1205AU, 0xA7A42C9DU, 0xB97843DCU, 0x9A1CF21FU, 0x84C09D5EU,
        0x2A36EB91U, 0x34EA84D0U, 0x178E3513U, 0x09525A52U, 0x51475695U, 0x4F9B39D4U, 0x6CFF8817U, 0x7223E756U,
        0xD726532BU, 0xC9FA3C6AU, 0xEA9E8DA9U, 0xF442E2E8U, 0xAC57EE2FU, 0xB28B816EU, 0x91EF30ADU, 0x8F335FECU,
        0x21C52923U, 0x3F194662U, 0x1C7DF7A1U, 0x02A198E0U, 0x5AB49427U, 0x4468FB66U, 0x670C4AA5U, 0x79D025E4U,
        0x243CC87AU, 0x3AE0A73BU, 0x198416F8U, 0x075879B9U, 0x5F4D757EU, 0x41911A3FU, 0x62F5ABFCU, 0x7C29C4BDU,
        0xD2DFB272U, 0xCC03DD33U, 0xEF676CF0U, 0xF1BB03B1U, 0xA9AE0F76U, 0xB7726037U, 0x9416D1F4U, 0x8ACABEB5U
    };

    bool reflect_output = false;
    bool final_xor = false;
    uint32_t crc_initial_value = INITIAL_CRC32_VALUE;

    if (NULL_PTR != last_crc_ptr) {
        crc_initial_value = *last_crc_ptr;
    }

    if (final_crc) {
        reflect_output = REFLECTED_OUTPUT;
        final_xor = FINAL_XOR;
    }

    return Crc32Base(
               crc_table,
               crc_data_ptr,
               crc_length,
               crc_initial_value,
               FINAL_XOR_VALUE,
               reflect_output,
               REFLECTED_INPUT,
               final_xor
           );
}
".

(** Src/crc/crc32_variants/crc32_d.c *)
Definition text_crc32_d_c : string :=
"/****************************************************************************
 *
 *   Copyright (c) 2023 IMProject Development Team. All rights reserved.
 *   Authors: Igor Misic <igy1000mb@gmail.com>
 *
 * Redistribution and use in source and binary forms, with or without
 * modification, are permitted provided that the following conditions
 * are met:
 *
 * 1. Redistributions of source code must retain the above copyright
 *    notice, this list of conditions and the following disclaimer.
 * 2. Redistributions in binary form must reproduce the above copyright
 *    notice, this list of conditions and the following disclaimer in
 *    the documentation and/or other materials provided with the
 *    distribution.
 * 3. Neither the name IMProject nor the names of its contributors may be
 *    used to endorse or promote products derived from this software
 *    without specific prior written permission.
 *
 * THIS SOFTWARE IS PROVIDED BY THE COPYRIGHT HOLDERS AND CONTRIBUTORS
 * ""AS IS"" AND ANY EXPRESS OR IMPLIED WARRANTIES, INCLUDING, BUT NOT
 * LIMITED TO, THE IMPLIED WARRANTIES OF MERCHANTABILITY AND FITNESS
 * FOR A PARTICULAR PURPOSE ARE DISCLAIMED. IN NO EVENT SHALL THE
 * COPYRIGHT OWNER OR CONTRIBUTORS BE LIABLE FOR ANY DIRECT, INDIRECT,
 * INCIDENTAL, SPECIAL, EXEMPLARY, OR CONSEQUENTIAL DAMAGES (INCLUDING,
 * BUT NOT LIMITED TO, PROCUREMENT OF SUBSTITUTE GOODS OR SERVICES; LOSS
 * OF USE, DATA, OR PROFITS; OR BUSINESS INTERRUPTION) HOWEVER CAUSED
 * AND ON ANY THEORY OF LIABILITY, WHETHER IN CONTRACT, STRICT
 * LIABILITY, OR TORT (INCLUDING NEGLIGENCE OR OTHERWISE) ARISING IN
 * ANY WAY OUT OF THE USE OF THIS SOFTWARE, EVEN IF ADVISED OF THE
 * POSSIBILITY OF SUCH DAMAGE.
 *
 ****************************************************************************/

#include ""crc32_d.h""

#include ""crc32_base.h""

#define INITIAL_CRC32_VALUE (0xFFFFFFFFU)
#define FINAL_XOR_VALUE (0xFFFFFFFFU)
#define REFLECTED_OUTPUT (true)
#define REFLECTED_INPUT (true)
#define FINAL_XOR (true)

uint32_t
Crc32_d(
    const uint8_t* crc_data_ptr,
    uint32_t crc_length,
    bool final_crc,
    const uint32_t* last_crc_ptr) {

    /* CRC32-D (Polynomial 0xA833982B) */
    static const uint32_t crc_table[256] = {
        0x00000000U, 0xA833982BU, 0xF854A87DU, 0x50673056U, 0x589AC8D1U, 0xF0A950FAU, 0xA0CE60ACU, 0x08FDF887U,
        0xB13591A2U, 0x19060989U, 0x496139DFU, 0xE152A1F4U, 0xE9AF5973U, 0x419CC158U, 0x11FBF10EU, 0xB9C86925U,
        0xCA58BB6FU, 0x626B2344U, 0x320C1312U, 0x9A3F8B39U, 0x92C273BEU, 0x3AF1EB95U, 0x6A96DBC3U, 0xC2A543E8U,
        0x7B6D2ACDU, 0xD35EB2E6U, 0x833982B0U, 0x2B0A1A9BU, 0x23F7E21CU, 0x8BC47A37U, 0xDBA34A61U, 0x7390D24AU,
        0x3C82EEF5U, 0x94B176DEU, 0xC4D64688U, 0x6CE5DEA3U, 0x64182624U, 0xCC2BBE0FU, 0x9C4C8E59U, 0x347F1672U,
        0x8DB77F57U, 0x2584E77CU, 0x75E3D72AU, 0xDDD04F01U, 0xD52DB786U, 0x7D1E2FADU, 0x2D791FFBU, 0x854A87D0U,
        0xF6DA559AU, 0x5EE9CDB1U, 0x0E8EFDE7U, 0xA6BD65CCU, 0xAE409D4BU, 0x06730560U, 0x56143536U, 0xFE27AD1DU,
        0x47EFC438U, 0xEFDC5C13U, 0xBFBB6C45U, 0x1788F46EU, 0x1F750CE9U, 0xB74694C2U, 0xE721A494U, 0x4F123CBFU,
        0x7905DDEAU, 0xD13645C1U, 0x81517597U, 0x2962EDBCU, 0x219F153BU, 0x89AC8D10U, 0xD9CBBD46U, 0x71F8256DU,
        0xC8304C48U, 0x6003D463U, 0x3064E435U, 0x98577C1EU, 0x90AA8499U, 0x38991CB2U, 0x68FE2CE4U, 0xC0CDB4CFU,
        0xB35D6685U, 0x1B6EFEAEU, 0x4B09CEF8U, 0xE33A56D3U, 0xEBC7AE54U, 0x43F4367FU, 0x13930629U, 0xBBA09E02U,
        0x0268F727U, 0xAA5B6F0CU, 0xFA3C5F5AU, 0x520FC771U, 0x5AF23FF6U, 0xF2C1A7DDU, 0xA2A6978BU, 0x0A950FA0U,
        0x4587331FU, 0xEDB4AB34U, 0xBDD39B62U, 0x15E00349U, 0x1D1DFBCEU, 0xB52E63E5U, 0xE54953B3U, 0x4D7ACB98U,
        0xF4B2A2BDU, 0x5C813A96U, 0x0CE60AC0U, 0xA4D592EBU, 0xAC286A6CU, 0x041BF247U, 0x547CC211U, 0xFC4F5A3AU,
        0x8FDF8870U, 0x27EC105BU, 0x778B200DU, 0xDFB8B826U, 0xD74540A1U, 0x7F76D88AU, 0x2F11E8DCU, 0x872270F7U,
        0x3EEA19D2U, 0x96D981F9U, 0xC6BEB1AFU, 0x6E8D2984U, 0x6670D103U, 0xCE434928U, 0x9E24797EU, 0x3617E155U,
        0xF20BBBD4U, 0x5A3823FFU, 0x0A5F13A9U, 0xA26C8B82U, 0xAA917305U, 0x02A2EB2EU, 0x52C5DB78U, 0xFAF64353U,
        0x433E2A76U, 0xEB0DB25DU, 0xBB6A820BU, 0x13591A20U, 0x1BA4E2A7U, 0xB3977A8CU, 0xE3F04ADAU, 0x4BC3D2F1U,
        0x385300BBU, 0x90609890U, 0xC007A8C6U, 0x683430EDU, 0x60C9C86AU, 0xC8FA5041U, 0x989D6017U, 0x30AEF83CU,
        0x89669119U, 0x21550932U, 0x71323964U, 0xD901A14FU, 0xD1FC59C8U, 0x79CFC1E3U, 0x29A8F1B5U, 0x819B699EU,
        0xCE895521U, 0x66BACD0AU, 0x36DDFD5CU, 0x9EEE6577U, 0x96139DF0U, 0x3E2005DBU, 0x6E47358DU, 0xC674ADA6U,
        0x7FBCC483U, 0xD78F5CA8U, 0x87E86CFEU, 0x2FDBF4D5U, 0x27260C52U, 0x8F159479U, 0xDF72A42FU, 0x77413C04U,
        0x04D1EE4EU, 0xACE27665U, 0xFC854633U, 0x54B6DE18U, 0x5C4B269FU, 0xF478BEB4U, 0xA41F8EE2U, 0x0C2C16C9U,
        0xB5E47FECU, 0x1DD7E7C7U, 0x4DB0D791U, 0xE5834FBAU, 0xED7EB73DU, 0x454D2F16U, 0x152A1F40U, 0xBD19876BU,
        0x8B0E663EU, 0x233DFE15U, 0x735ACE43U, 0xDB695668U, 0xD394AEEFU, 0x7BA736C4U, 0x2BC00692U, 0x83F39EB9U,
        0x3A3BF79CU, 0x92086FB7U, 0xC26F5FE1U, 0x6A5CC7CAU, 0x62A13F4DU, 0xCA92A766U, 0x9AF59730U, 0x32C60F1BU,
        0x4156DD51U, 0xE965457AU, 0xB902752CU, 0x1131ED07U, 0x19CC1580U, 0xB1FF8DABU, 0xE198BDFDU, 0x49AB25D6U,
        0xF0634CF3U, 0x5850D4D8U, 0x0837E48EU, 0xA0047CA5U, 0xA8F98422U, 0x00CA1C09U, 0x50AD2C5FU, 0xF89EB474U,
        0xB78C88CBU, 0x1FBF10E0U, 0x4FD820B6U, 0xE7EBB89DU, 0xEF16401AU, 0x4725D831U, 0x1742E867U, 0xBF71704CU,
        0x06B91969U, 0xAE8A8142U, 0xFEEDB114U, 0x56DE293FU, 0x5E23D1B8U, 0xF6104993U, 0xA67779C5U, 0x0E44E1EEU,
        0x7DD433A4U, 0xD5E7AB8FU, 0x85809BD9U, 0x2DB303F2U, 0x254EFB75U, 0x8D7D635EU, 0xDD1A5308U, 0x7529CB23U,
        0xCCE1A206U, 0x64D23A2DU, 0x34B50A7BU, 0x9C869250U, 0x947B6AD7U, 0x3C48F2FCU, 0x6C2FC2AAU, 0xC41C5A81U
    };

    bool reflect_output = false;
    bool final_xor = false;
    uint32_t crc_initial_value = INITIAL_CRC32_VALUE;

    if (NULL_PTR != last_crc_ptr) {
        crc_initial_value = *last_crc_ptr;
    }

    if (final_crc) {
        reflect_output = REFLECTED_OUTPUT;
        final_xor = FINAL_XOR;
    }

    return Crc32Base(
               crc_table,
               crc_data_ptr,
               crc_length,
               crc_initial_value,
               FINAL_XOR_VALUE,
               reflect_output,
               REFLECTED_INPUT,
               final_xor
           );
}
".

(** Src/crc/crc32_variants/crc32_jamcrc.c *)
Definition text_crc32_jamcrc_c : string :=
"/****************************************************************************
 *
 *   Copyright (c) 2023 IMProject Development Team. All rights reserved.
 *   Authors: Igor Misic <igy1000mb@gmail.com>
 *
 * Redistribution and use in source and binary forms, with or without
 * modification, are permitted provided that the following conditions
 * are met:
 *
 * 1. Redistributions of source code must retain the above copyright
 *    notice, this list of conditions and the following disclaimer.
 * 2. Redistributions in binary form must reproduce the above copyright
 *    notice, this list of conditions and the following disclaimer in
 *    the documentation and/or other materials provided with the
 *    distribution.
 * 3. Neither the name IMProject nor the names of its contributors may be
 *    used to endorse or promote products derived from this software
 *    without specific prior written permission.
 *
 * THIS SOFTWARE IS PROVIDED BY THE COPYRIGHT HOLDERS AND CONTRIBUTORS
 * ""AS IS"" AND ANY EXPRESS OR IMPLIED WARRANTIES, INCLUDING, BUT NOT
 * LIMITED TO, THE IMPLIED WARRANTIES OF MERCHANTABILITY AND FITNESS
 * FOR A PARTICULAR PURPOSE ARE DISCLAIMED. IN NO EVENT SHALL THE
 * COPYRIGHT OWNER OR CONTRIBUTORS BE LIABLE FOR ANY DIRECT, INDIRECT,
 * INCIDENTAL, SPECIAL, EXEMPLARY, OR CONSEQUENTIAL DAMAGES (INCLUDING,
 * BUT NOT LIMITED TO, PROCUREMENT OF SUBSTITUTE GOODS OR SERVICES; LOSS
 * OF USE, DATA, OR PROFITS; OR BUSINESS INTERRUPTION) HOWEVER CAUSED
 * AND ON ANY THEORY OF LIABILITY, WHETHER IN CONTRACT, STRICT
 * LIABILITY, OR TORT (INCLUDING NEGLIGENCE OR OTHERWISE) ARISING IN
 * ANY WAY OUT OF THE USE OF THIS SOFTWARE, EVEN IF ADVISED OF THE
 * POSSIBILITY OF SUCH DAMAGE.
 *
 ****************************************************************************/

#include ""crc32_jamcrc.h""

#include ""crc32_base.h""

#define INITIAL_CRC32_VALUE (0xFFFFFFFFU)
#define FINAL_XOR_VALUE (0x0U)
#define REFLECTED_OUTPUT (true)
#define REFLECTED_INPUT (true)
#define FINAL_XOR (false)

uint32_t
Crc32_jamcrc(
    const uint8_t* crc_data_ptr,
    uint32_t crc_length,
    bool final_crc,
    const uint32_t* last_crc_ptr) {

    /* CRC32-JAMCRC (Polynomial 0x4C11DB7) */
    static const uint32_t crc_table[256] = {
        0x00000000U, 0x04C11DB7U, 0x09823B6EU, 0x0D4326D9U, 0x130476DCU, 0x17C56B6BU, 0x1A864DB2U, 0x1E475005U,
        0x2608EDB8U, 0x22C9F00FU, 0x2F8AD6D6U, 0x2B4BCB61U, 0x350C9B64U, 0x31CD86D3U, 0x3C8EA00AU, 0x384FBDBDU,
        0x4C11DB70U, 0x48D0C6C7U, 0x4593E01EU, 0x4152FDA9U, 0x5F15ADACU, 0x5BD4B01BU, 0x569796C2U, 0x52568B75U,
        0x6A1936C8U, 0x6ED82B7FU, 0x639B0DA6U, 0x675A1011U, 0x791D4014U, 0x7DDC5DA3U, 0x709F7B7AU, 0x745E66CDU,
        0x9823B6E0U, 0x9CE2AB57U, 0x91A18D8EU, 0x95609039U, 0x8B27C03CU, 0x8FE6DD8BU, 0x82A5FB52U, 0x8664E6E5U,
        0xBE2B5B58U, 0xBAEA46EFU, 0xB7A96036U, 0xB3687D81U, 0xAD2F2D84U, 0xA9EE3033U, 0xA4AD16EAU, 0xA06C0B5DU,
        0xD4326D90U, 0xD0F37027U, 0xDDB056FEU, 0xD9714B49U, 0xC7361B4CU, 0xC3F706FBU, 0xCEB42022U, 0xCA753D95U,
        0xF23A8028U, 0xF6FB9D9FU, 0xFBB8BB46U, 0xFF79A6F1U, 0xE13EF6F4U, 0xE5FFEB43U, 0xE8BCCD9AU, 0xEC7DD02DU,
        0x34867077U, 0x30476DC0U, 0x3D044B19U, 0x39C556AEU, 0x278206ABU, 0x23431B1CU, 0x2E003DC5U, 0x2AC12072U,
        0x128E9DCFU, 0x164F8078U, 0x1B0CA6A1U, 0x1FCDBB16U, 0x018AEB13U, 0x054BF6A4U, 0x0808D07DU, 0x0CC9CDCAU,
        0x7897AB07U, 0x7C56B6B0U, 0x71159069U, 0x75D48DDEU, 0x6B93DDDBU, 0x6F52C06CU, 0x6211E6B5U, 0x66D0FB02U,
        0x5E9F46BFU, 0x5A5E5B08U, 0x571D7DD1U, 0x53DC6066U, 0x4D9B3063U, 0x495A2DD4U, 0x44190B0DU, 0x40D816BAU,
        0xACA5C697U, 0xA864DB20U, 0xA527FDF9U, 0xA1E6E04EU, 0xBFA1B04BU, 0xBB60ADFCU, 0xB6238B25U, 0xB2E29692U,
        0x8AAD2B2FU, 0x8E6C3698U, 0x832F1041U, 0x87EE0DF6U, 0x99A95DF3U, 0x9D684044U, 0x902B669DU, 0x94EA7B2AU,
        0xE0B41DE7U, 0xE4750050U, 0xE9362689U, 0xEDF73B3EU, 0xF3B06B3BU, 0xF771768CU, 0xFA325055U, 0xFEF34DE2U,
        0xC6BCF05FU, 0xC27DEDE8U, 0xCF3ECB31U, 0xCBFFD686U, 0xD5B88683U, 0xD1799B34U, 0xDC3ABDEDU, 0xD8FBA05AU,
        0x690CE0EEU, 0x6DCDFD59U, 0x608EDB80U, 0x644FC637U, 0x7A089632U, 0x7EC98B85U, 0x738AAD5CU, 0x774BB0EBU,
        0x4F040D56U, 0x4BC510E1U, 0x46863638U, 0x42472B8FU, 0x5C007B8AU, 0x58C1663DU, 0x558240E4U, 0x51435D53U,
        0x251D3B9EU, 0x21DC2629U, 0x2C9F00F0U, 0x285E1D47U, 0x36194D42U, 0x32D850F5U, 0x3F9B762CU, 0x3B5A6B9BU,
        0x0315D626U, 0x07D4CB91U, 0x0A97ED48U, 0x0E56F0FFU, 0x1011A0FAU, 0x14D0BD4DU, 0x19939B94U, 0x1D528623U,
        0xF12F560EU, 0xF5EE4BB9U, 0xF8AD6D60U, 0xFC6C70D7U, 0xE22B20D2U, 0xE6EA3D65U, 0xEBA91BBCU, 0xEF68060BU,
        0xD727BBB6U, 0xD3E6A601U, 0xDEA580D8U, 0xDA649D6FU, 0xC423CD6AU, 0xC0E2D0DDU, 0xCDA1F604U, 0xC960EBB3U,
        0xBD3E8D7EU, 0xB9FF90C9U, 0xB4BCB610U, 0xB07DABA7U, 0xAE3AFBA2U, 0xAAFBE615U, 0xA7B8C0CCU, 0xA379DD7BU,
        0x9B3660C6U, 0x9FF77D71U, 0x92B45BA8U, 0x9675461FU, 0x8832161AU, 0x8CF30BADU, 0x81B02D74U, 0x857130C3U,
        0x5D8A9099U, 0x594B8D2EU, 0x5408ABF7U, 0x50C9B640U, 0x4E8EE645U, 0x4A4FFBF2U, 0x470CDD2BU, 0x43CDC09CU,
        0x7B827D21U, 0x7F436096U, 0x7200464FU, 0x76C15BF8U, 0x68860BFDU, 0x6C47164AU, 0x61043093U, 0x65C52D24U,
        0x119B4BE9U, 0x155A565EU, 0x18197087U, 0x1CD86D30U, 0x029F3D35U, 0x065E2082U, 0x0B1D065BU, 0x0FDC1BECU,
        0x3793A651U, 0x3352BBE6U, 0x3E119D3FU, 0x3AD08088U, 0x2497D08DU, 0x2056CD3AU, 0x2D15EBE3U, 0x29D4F654U,
        0xC5A92679U, 0xC1683BCEU, 0xCC2B1D17U, 0xC8EA00A0U, 0xD6AD50A5U, 0xD26C4D12U, 0xDF2F6BCBU, 0xDBEE767CU,
        0xE3A1CBC1U, 0xE760D676U, 0xEA23F0AFU, 0xEEE2ED18U, 0xF0A5BD1DU, 0xF464A0AAU, 0xF9278673U, 0xFDE69BC4U,
        0x89B8FD09U, 0x8D79E0BEU, 0x803AC667U, 0x84FBDBD0U, 0x9ABC8BD5U, 0x9E7D9662U, 0x933EB0BBU, 0x97FFAD0CU,
        0xAFB010B1U, 0xAB710D06U, 0xA6322BDFU, 0xA2F33668U, 0xBCB4666DU, 0xB8757BDAU, 0xB5365D03U, 0xB1F740B4U
    };

    bool reflect_output = false;
    uint32_t crc_initial_value = INITIAL_CRC32_VALUE;

    if (NULL_PTR != last_crc_ptr) {
        crc_initial_value = *last_crc_ptr;
    }

    if (final_crc) {
        reflect_output = REFLECTED_OUTPUT;
    }

    return Crc32Base(
               crc_table,
               crc_data_ptr,
               crc_length,
               crc_initial_value,
               FINAL_XOR_VALUE,
               reflect_output,
               REFLECTED_INPUT,
               FINAL_XOR
           );
}
".

(** Src/crc/crc32_variants/crc32_mpeg2.c *)
Definition text_crc32_mpeg2_c : string :=
"/****************************************************************************
 *
 *   Copyright (c) 2023 IMProject Development Team. All rights reserved.
 *   Authors: Igor Misic <igy1000mb@gmail.com>
 *
 * Redistribution and use in source and binary forms, with or without
 * modification, are permitted provided that the following conditions
 * are met:
 *
 * 1. Redistributions of source code must retain the above copyright
 *    notice, this list of conditions and the following disclaimer.
 * 2. Redistributions in binary form must reproduce the above copyright
 *    notice, this list of conditions and the following disclaimer in
 *    the documentation and/or other materials provided with the
 *    distribution.
 * 3. Neither the name IMProject nor the names of its contributors may be
 *    used to endorse or promote products derived from this software
 *    without specific prior written permission.
 *
 * THIS SOFTWARE IS PROVIDED BY THE COPYRIGHT HOLDERS AND CONTRIBUTORS
 * ""AS IS"" AND ANY EXPRESS OR IMPLIED WARRANTIES, INCLUDING, BUT NOT
 * LIMITED TO, THE IMPLIED WARRANTIES OF MERCHANTABILITY AND FITNESS
 * FOR A PARTICULAR PURPOSE ARE DISCLAIMED. IN NO EVENT SHALL THE
 * COPYRIGHT OWNER OR CONTRIBUTORS BE LIABLE FOR ANY DIRECT, INDIRECT,
 * INCIDENTAL, SPECIAL, EXEMPLARY, OR CONSEQUENTIAL DAMAGES (INCLUDING,
 * BUT NOT LIMITED TO, PROCUREMENT OF SUBSTITUTE GOODS OR SERVICES; LOSS
 * OF USE, DATA, OR PROFITS; OR BUSINESS INTERRUPTION) HOWEVER CAUSED
 * AND ON ANY THEORY OF LIABILITY, WHETHER IN CONTRACT, STRICT
 * LIABILITY, OR TORT (INCLUDING NEGLIGENCE OR OTHERWISE) ARISING IN
 * ANY WAY OUT OF THE USE OF THIS SOFTWARE, EVEN IF ADVISED OF THE
 * POSSIBILITY OF SUCH DAMAGE.
 *
 ****************************************************************************/

#include ""crc32_mpeg2.h""

#include ""crc32_base.h""

#define INITIAL_CRC32_VALUE (0xFFFFFFFFU)
#define FINAL_XOR_VALUE (0x0U)
#define REFLECTED_OUTPUT (false)
#define REFLECTED_INPUT (false)
#define FINAL_XOR (false)

uint32_t
Crc32_mpeg2(
    const uint8_t* crc_data_ptr,
    uint32_t crc_length,
    const uint32_t* last_crc_ptr) {

    /* CRC32-MPEG2 (Polynomial 0x4C11DB7) */
    static const uint32_t crc_table[256] = {
        0x00000000U, 0x04C11DB7U, 0x09823B6EU, 0x0D4326D9U, 0x130476DCU, 0x17C56B6BU, 0x1A864DB2U, 0x1E475005U,
        0x2608EDB8U, 0x22C9F00FU, 0x2F8AD6D6U, 0x2B4BCB61U, 0x350C9B64U, 0x31CD86D3U, 0x3C8EA00AU, 0x384FBDBDU,
        0x4C11DB70U, 0x48D0C6C7U, 0x4593E01EU, 0x4152FDA9U, 0x5F15ADACU, 0x5BD4B01BU, 0x569796C2U, 0x52568B75U,
        0x6A1936C8U, 0x6ED82B7FU, 0x639B0DA6U, 0x675A1011U, 0x791D4014U, 0x7DDC5DA3U, 0x709F7B7AU, 0x745E66CDU,
        0x9823B6E0U, 0x9CE2AB57U, 0x91A18D8EU, 0x95609039U, 0x8B27C03CU, 0x8FE6DD8BU, 0x82A5FB52U, 0x8664E6E5U,
        0xBE2B5B58U, 0xBAEA46EFU, 0xB7A96036U, 0xB3687D81U, 0xAD2F2D84U, 0xA9EE3033U, 0xA4AD16EAU, 0xA06C0B5DU,
        0xD4326D90U, 0xD0F37027U, 0xDDB056FEU, 0xD9714B49U, 0xC7361B4CU, 0xC3F706FBU, 0xCEB42022U, 0xCA753D95U,
        0xF23A8028U, 0xF6FB9D9FU, 0xFBB8BB46U, 0xFF79A6F1U, 0xE13EF6F4U, 0xE5FFEB43U, 0xE8BCCD9AU, 0xEC7DD02DU,
        0x34867077U, 0x30476DC0U, 0x3D044B19U, 0x39C556AEU, 0x278206ABU, 0x23431B1CU, 0x2E003DC5U, 0x2AC12072U,
        0x128E9DCFU, 0x164F8078U, 0x1B0CA6A1U, 0x1FCDBB16U, 0x018AEB13U, 0x054BF6A4U, 0x0808D07DU, 0x0CC9CDCAU,
        0x7897AB07U, 0x7C56B6B0U, 0x71159069U, 0x75D48DDEU, 0x6B93DDDBU, 0x6F52C06CU, 0x6211E6B5U, 0x66D0FB02U,
        0x5E9F46BFU, 0x5A5E5B08U, 0x571D7DD1U, 0x53DC6066U, 0x4D9B3063U, 0x495A2DD4U, 0x44190B0DU, 0x40D816BAU,
        0xACA5C697U, 0xA864DB20U, 0xA527FDF9U, 0xA1E6E04EU, 0xBFA1B04BU, 0xBB60ADFCU, 0xB6238B25U, 0xB2E29692U,
        0x8AAD2B2FU, 0x8E6C3698U, 0x832F1041U, 0x87EE0DF6U, 0x99A95DF3U, 0x9D684044U, 0x902B669DU, 0x94EA7B2AU,
        0xE0B41DE7U, 0xE4750050U, 0xE9362689U, 0xEDF73B3EU, 0xF3B06B3BU, 0xF771768CU, 0xFA325055U, 0xFEF34DE2U,
        0xC6BCF05FU, 0xC27DEDE8U, 0xCF3ECB31U, 0xCBFFD686U, 0xD5B88683U, 0xD1799B34U, 0xDC3ABDEDU, 0xD8FBA05AU,
        0x690CE0EEU, 0x6DCDFD59U, 0x608EDB80U, 0x644FC637U, 0x7A089632U, 0x7EC98B85U, 0x738AAD5CU, 0x774BB0EBU,
        0x4F040D56U, 0x4BC510E1U, 0x46863638U, 0x42472B8FU, 0x5C007B8AU, 0x58C1663DU, 0x558240E4U, 0x51435D53U,
        0x251D3B9EU, 0x21DC2629U, 0x2C9F00F0U, 0x285E1D47U, 0x36194D42U, 0x32D850F5U, 0x3F9B762CU, 0x3B5A6B9BU,
        0x0315D626U, 0x07D4CB91U, 0x0A97ED48U, 0x0E56F0FFU, 0x1011A0FAU, 0x14D0BD4DU, 0x19939B94U, 0x1D528623U,
        0xF12F560EU, 0xF5EE4BB9U, 0xF8AD6D60U, 0xFC6C70D7U, 0xE22B20D2U, 0xE6EA3D65U, 0xEBA91BBCU, 0xEF68060BU,
        0xD727BBB6U, 0xD3E6A601U, 0xDEA580D8U, 0xDA649D6FU, 0xC423CD6AU, 0xC0E2D0DDU, 0xCDA1F604U, 0xC960EBB3U,
        0xBD3E8D7EU, 0xB9FF90C9U, 0xB4BCB610U, 0xB07DABA7U, 0xAE3AFBA2U, 0xAAFBE615U, 0xA7B8C0CCU, 0xA379DD7BU,
        0x9B3660C6U, 0x9FF77D71U, 0x92B45BA8U, 0x9675461FU, 0x8832161AU, 0x8CF30BADU, 0x81B02D74U, 0x857130C3U,
        0x5D8A9099U, 0x594B8D2EU, 0x5408ABF7U, 0x50C9B640U, 0x4E8EE645U, 0x4A4FFBF2U, 0x470CDD2BU, 0x43CDC09CU,
        0x7B827D21U, 0x7F436096U, 0x7200464FU, 0x76C15BF8U, 0x68860BFDU, 0x6C47164AU, 0x61043093U, 0x65C52D24U,
        0x119B4BE9U, 0x155A565EU, 0x18197087U, 0x1CD86D30U, 0x029F3D35U, 0x065E2082U, 0x0B1D065BU, 0x0FDC1BECU,
        0x3793A651U, 0x3352BBE6U, 0x3E119D3FU, 0x3AD08088U, 0x2497D08DU, 0x2056CD3AU, 0x2D15EBE3U, 0x29D4F654U,
        0xC5A92679U, 0xC1683BCEU, 0xCC2B1D17U, 0xC8EA00A0U, 0xD6AD50A5U, 0xD26C4D12U, 0xDF2F6BCBU, 0xDBEE767CU,
        0xE3A1CBC1U, 0xE760D676U, 0xEA23F0AFU, 0xEEE2ED18U, 0xF0A5BD1DU, 0xF464A0AAU, 0xF9278673U, 0xFDE69BC4U,
        0x89B8FD09U, 0x8D79E0BEU, 0x803AC667U, 0x84FBDBD0U, 0x9ABC8BD5U, 0x9E7D9662U, 0x933EB0BBU, 0x97FFAD0CU,
        0xAFB010B1U, 0xAB710D06U, 0xA6322BDFU, 0xA2F33668U, 0xBCB4666DU, 0xB8757BDAU, 0xB5365D03U, 0xB1F740B4U
    };

    uint32_t crc_initial_value = INITIAL_CRC32_VALUE;

    if (NULL_PTR != last_crc_ptr) {
        crc_initial_value = *last_crc_ptr;
    }

    return Crc32Base(
               crc_table,
               crc_data_ptr,
               crc_length,
               crc_initial_value,
               FINAL_XOR_VALUE,
               REFLECTED_OUTPUT,
               REFLECTED_INPUT,
               FINAL_XOR
           );
}
".

(** Src/crc/crc32_variants/crc32_posix.c *)
Definition text_crc32_posix_c : string :=
"/****************************************************************************
 *
 *   Copyright (c) 2023 IMProject Development Team. All rights reserved.
 *   Authors: Igor Misic <igy1000mb@gmail.com>
 *
 * Redistribution and use in source and binary forms, with or without
 * modification, are permitted provided that the following conditions
 * are met:
 *
 * 1. Redistributions of source code must retain the above copyright
 *    notice, this list of conditions and the following disclaimer.
 * 2. Redistributions in binary form must reproduce the above copyright
 *    notice, this list of conditions and the following disclaimer in
 *    the documentation and/or other materials provided with the
 *    distribution.
 * 3. Neither the name IMProject nor the names of its contributors may be
 *    used to endorse or promote products derived from this software
 *    without specific prior written permission.
 *
 * THIS SOFTWARE IS PROVIDED BY THE COPYRIGHT HOLDERS AND CONTRIBUTORS
 * ""AS IS"" AND ANY EXPRESS OR IMPLIED WARRANTIES, INCLUDING, BUT NOT
 * LIMITED TO, THE IMPLIED WARRANTIES OF MERCHANTABILITY AND FITNESS
 * FOR A PARTICULAR PURPOSE ARE DISCLAIMED. IN NO EVENT SHALL THE
 * COPYRIGHT OWNER OR CONTRIBUTORS BE LIABLE FOR ANY DIRECT, INDIRECT,
 * INCIDENTAL, SPECIAL, EXEMPLARY, OR CONSEQUENTIAL DAMAGES (INCLUDING,
 * BUT NOT LIMITED TO, PROCUREMENT OF SUBSTITUTE GOODS OR SERVICES; LOSS
 * OF USE, DATA, OR PROFITS; OR BUSINESS INTERRUPTION) HOWEVER CAUSED
 * AND ON ANY THEORY OF LIABILITY, WHETHER IN CONTRACT, STRICT
 * LIABILITY, OR TORT (INCLUDING NEGLIGENCE OR OTHERWISE) ARISING IN
 * ANY WAY OUT OF THE USE OF THIS SOFTWARE, EVEN IF ADVISED OF THE
 * POSSIBILITY OF SUCH DAMAGE.
 *
 ****************************************************************************/

#include ""crc32_posix.h""

#include ""crc32_base.h""

#define INITIAL_CRC32_VALUE (0x0U)
#define FINAL_XOR_VALUE (0xFFFFFFFFU)
#define REFLECTED_OUTPUT (false)
#define REFLECTED_INPUT (false)
#define FINAL_XOR (true)

uint32_t
Crc32_posix(
    const uint8_t* crc_data_ptr,
    uint32_t crc_length,
    bool final_crc,
    const uint32_t* last_crc_ptr) {

    /* CRC32-POSIX (Polynomial 0x4C11DB7) */
    static const uint32_t crc_table[256] = {
        0x00000000U, 0x04C11DB7U, 0x09823B6EU, 0x0D4326D9U, 0x130476DCU, 0x17C56B6BU, 0x1A864DB2U, 0x1E475005U,
        0x2608EDB8U, 0x22C9F00FU, 0x2F8AD6D6U, 0x2B4BCB61U, 0x350C9B64U, 0x31CD86D3U, 0x3C8EA00AU, 0x384FBDBDU,
        0x4C11DB70U, 0x48D0C6C7U, 0x4593E01EU, 0x4152FDA9U, 0x5F15ADACU, 0x5BD4B01BU, 0x569796C2U, 0x52568B75U,
        0x6A1936C8U, 0x6ED82B7FU, 0x639B0DA6U, 0x675A1011U, 0x791D4014U, 0x7DDC5DA3U, 0x709F7B7AU, 0x745E66CDU,
        0x9823B6E0U, 0x9CE2AB57U, 0x91A18D8EU, 0x95609039U, 0x8B27C03CU, 0x8FE6DD8BU, 0x82A5FB52U, 0x8664E6E5U,
        0xBE2B5B58U, 0xBAEA46EFU, 0xB7A96036U, 0xB3687D81U, 0xAD2F2D84U, 0xA9EE3033U, 0xA4AD16EAU, 0xA06C0B5DU,
        0xD4326D90U, 0xD0F37027U, 0xDDB056FEU, 0xD9714B49U, 0xC7361B4CU, 0xC3F706FBU, 0xCEB42022U, 0xCA753D95U,
        0xF23A8028U, 0xF6FB9D9FU, 0xFBB8BB46U, 0xFF79A6F1U, 0xE13EF6F4U, 0xE5FFEB43U, 0xE8BCCD9AU, 0xEC7DD02DU,
        0x34867077U, 0x30476DC0U, 0x3D044B19U, 0x39C556AEU, 0x278206ABU, 0x23431B1CU, 0x2E003DC5U, 0x2AC12072U,
        0x128E9DCFU, 0x164F8078U, 0x1B0CA6A1U, 0x1FCDBB16U, 0x018AEB13U, 0x054BF6A4U, 0x0808D07DU, 0x0CC9CDCAU,
        0x7897AB07U, 0x7C56B6B0U, 0x71159069U, 0x75D48DDEU, 0x6B93DDDBU, 0x6F52C06CU, 0x6211E6B5U, 0x66D0FB02U,
        0x5E9F46BFU, 0x5A5E5B08U, 0x571D7DD1U, 0x53DC6066U, 0x4D9B3063U, 0x495A2DD4U, 0x44190B0DU, 0x40D816BAU,
        0xACA5C697U, 0xA864DB20U, 0xA527FDF9U, 0xA1E6E04EU, 0xBFA1B04BU, 0xBB60ADFCU, 0xB6238B25U, 0xB2E29692U,
        0x8AAD2B2FU, 0x8E6C3698U, 0x832F1041U, 0x87EE0DF6U, 0x99A95DF3U, 0x9D684044U, 0x902B669DU, 0x94EA7B2AU,
        0xE0B41DE7U, 0xE4750050U, 0xE9362689U, 0xEDF73B3EU, 0xF3B06B3BU, 0xF771768CU, 0xFA325055U, 0xFEF34DE2U,
        0xC6BCF05FU, 0xC27DEDE8U, 0xCF3ECB31U, 0xCBFFD686U, 0xD5B88683U, 0xD1799B34U, 0xDC3ABDEDU, 0xD8FBA05AU,
        0x690CE0EEU, 0x6DCDFD59U, 0x608EDB80U, 0x644FC637U, 0x7A089632U, 0x7EC98B85U, 0x738AAD5CU, 0x774BB0EBU,
        0x4F040D56U, 0x4BC510E1U, 0x46863638U, 0x42472B8FU, 0x5C007B8AU, 0x58C1663DU, 0x558240E4U, 0x51435D53U,
        0x251D3B9EU, 0x21DC2629U, 0x2C9F00F0U, 0x285E1D47U, 0x36194D42U, 0x32D850F5U, 0x3F9B762CU, 0x3B5A6B9BU,
        0x0315D626U, 0x07D4CB91U, 0x0A97ED48U, 0x0E56F0FFU, 0x1011A0FAU, 0x14D0BD4DU, 0x19939B94U, 0x1D528623U,
        0xF12F560EU, 0xF5EE4BB9U, 0xF8AD6D60U, 0xFC6C70D7U, 0xE22B20D2U, 0xE6EA3D65U, 0xEBA91BBCU, 0xEF68060BU,
        0xD727BBB6U, 0xD3E6A601U, 0xDEA580D8U, 0xDA649D6FU, 0xC423CD6AU, 0xC0E2D0DDU, 0xCDA1F604U, 0xC960EBB3U,
        0xBD3E8D7EU, 0xB9FF90C9U, 0xB4BCB610U, 0xB07DABA7U, 0xAE3AFBA2U, 0xAAFBE615U, 0xA7B8C0CCU, 0xA379DD7BU,
        0x9B3660C6U, 0x9FF77D71U, 0x92B45BA8U, 0x9675461FU, 0x8832161AU, 0x8CF30BADU, 0x81B02D74U, 0x857130C3U,
        0x5D8A9099U, 0x594B8D2EU, 0x5408ABF7U, 0x50C9B640U, 0x4E8EE645U, 0x4A4FFBF2U, 0x470CDD2BU, 0x43CDC09CU,
        0x7B827D21U, 0x7F436096U, 0x7200464FU, 0x76C15BF8U, 0x68860BFDU, 0x6C47164AU, 0x61043093U, 0x65C52D24U,
        0x119B4BE9U, 0x155A565EU, 0x18197087U, 0x1CD86D30U, 0x029F3D35U, 0x065E2082U, 0x0B1D065BU, 0x0FDC1BECU,
        0x3793A651U, 0x3352BBE6U, 0x3E119D3FU, 0x3AD08088U, 0x2497D08DU, 0x2056CD3AU, 0x2D15EBE3U, 0x29D4F654U,
        0xC5A92679U, 0xC1683BCEU, 0xCC2B1D17U, 0xC8EA00A0U, 0xD6AD50A5U, 0xD26C4D12U, 0xDF2F6BCBU, 0xDBEE767CU,
        0xE3A1CBC1U, 0xE760D676U, 0xEA23F0AFU, 0xEEE2ED18U, 0xF0A5BD1DU, 0xF464A0AAU, 0xF9278673U, 0xFDE69BC4U,
        0x89B8FD09U, 0x8D79E0BEU, 0x803AC667U, 0x84FBDBD0U, 0x9ABC8BD5U, 0x9E7D9662U, 0x933EB0BBU, 0x97FFAD0CU,
        0xAFB010B1U, 0xAB710D06U, 0xA6322BDFU, 0xA2F33668U, 0xBCB4666DU, 0xB8757BDAU, 0xB5365D03U, 0xB1F740B4U
    };

    bool final_xor = false;
    uint32_t crc_initial_value = INITIAL_CRC32_VALUE;

    if (NULL_PTR != last_crc_ptr) {
        crc_initial_value = *last_crc_ptr;
    }

    if (final_crc) {
        final_xor = FINAL_XOR;
    }

    return Crc32Base(
               crc_table,
               crc_data_ptr,
               crc_length,
               crc_initial_value,
               FINAL_XOR_VALUE,
               REFLECTED_OUTPUT,
               REFLECTED_INPUT,
               final_xor
           );
}
".

(** Src/crc/crc32_variants/crc32_q.c *)
Definition text_crc32_q_c : string :=
"/****************************************************************************
 *
 *   Copyright (c) 2023 IMProject Development Team. All rights reserved.
 *   Authors: Igor Misic <igy1000mb@gmail.com>
 *
 * Redistribution and use in source and binary forms, with or without
 * modification, are permitted provided that the following conditions
 * are met:
 *
 * 1. Redistributions of source code must retain the above copyright
 *    notice, this list of conditions and the following disclaimer.
 * 2. Redistributions in binary form must reproduce the above copyright
 *    notice, this list of conditions and the following disclaimer in
 *    the documentation and/or other materials provided with the
 *    distribution.
 * 3. Neither the name IMProject nor the names of its contributors may be
 *    used to endorse or promote products derived from this software
 *    without specific prior written permission.
 *
 * THIS SOFTWARE IS PROVIDED BY THE COPYRIGHT HOLDERS AND CONTRIBUTORS
 * ""AS IS"" AND ANY EXPRESS OR IMPLIED WARRANTIES, INCLUDING, BUT NOT
 * LIMITED TO, THE IMPLIED WARRANTIES OF MERCHANTABILITY AND FITNESS
 * FOR A PARTICULAR PURPOSE ARE DISCLAIMED. IN NO EVENT SHALL THE
 * COPYRIGHT OWNER OR CONTRIBUTORS BE LIABLE FOR ANY DIRECT, INDIRECT,
 * INCIDENTAL, SPECIAL, EXEMPLARY, OR CONSEQUENTIAL DAMAGES (INCLUDING,
 * BUT NOT LIMITED TO, PROCUREMENT OF SUBSTITUTE GOODS OR SERVICES; LOSS
 * OF USE, DATA, OR PROFITS; OR BUSINESS INTERRUPTION) HOWEVER CAUSED
 * AND ON ANY THEORY OF LIABILITY, WHETHER IN CONTRACT, STRICT
 * LIABILITY, OR TORT (INCLUDING NEGLIGENCE OR OTHERWISE) ARISING IN
 * ANY WAY OUT OF THE USE OF THIS SOFTWARE, EVEN IF ADVISED OF THE
 * POSSIBILITY OF SUCH DAMAGE.
 *
 ****************************************************************************/

#include ""crc32_q.h""

#include ""crc32_base.h""

#define INITIAL_CRC32_VALUE (0x0U)
#define FINAL_XOR_VALUE (0x0U)
#define REFLECTED_OUTPUT (false)
#define REFLECTED_INPUT (false)
#define FINAL_XOR (false)

uint32_t
Crc32_q(
    const uint8_t* crc_data_ptr,
    uint32_t crc_length,
    const uint32_t* last_crc_ptr) {

    /* CRC32-Q (Polynomial 0x4C11DB7) */
    static const uint32_t crc_table[256] = {
        0x00000000U, 0x814141ABU, 0x83C3C2FDU, 0x02828356U, 0x86C6C451U, 0x078785FAU, 0x050506ACU, 0x84444707U,
        0x8CCCC909U, 0x0D8D88A2U, 0x0F0F0BF4U, 0x8E4E4A5FU, 0x0A0A0D58U, 0x8B4B4CF3U, 0x89C9CFA5U, 0x08888E0EU,
        0x98D8D3B9U, 0x19999212U, 0x1B1B1144U, 0x9A5A50EFU, 0x1E1E17E8U, 0x9F5F5643U, 0x9DDDD515U, 0x1C9C94BEU,
        0x14141AB0U, 0x95555B1BU, 0x97D7D84DU, 0x169699E6U, 0x92D2DEE1U, 0x13939F4AU, 0x11111C1CU, 0x90505DB7U,
        0xB0F0E6D9U, 0x31B1A772U, 0x33332424U, 0xB272658FU, 0x36362288U, 0xB7776323U, 0xB5F5E075U, 0x34B4A1DEU,
        0x3C3C2FD0U, 0xBD7D6E7BU, 0xBFFFED2DU, 0x3EBEAC86U, 0xBAFAEB81U, 0x3BBBAA2AU, 0x3939297CU, 0xB87868D7U,
        0x28283560U, 0xA96974CBU, 0xABEBF79DU, 0x2AAAB636U, 0xAEEEF131U, 0x2FAFB09AU, 0x2D2D33CCU, 0xAC6C7267U,
        0xA4E4FC69U, 0x25A5BDC2U, 0x27273E94U, 0xA6667F3FU, 0x22223838U, 0xA3637993U, 0xA1E1FAC5U, 0x20A0BB6EU,
        0xE0A08C19U, 0x61E1CDB2U, 0x63634EE4U, 0xE2220F4FU, 0x66664848U, 0xE72709E3U, 0xE5A58AB5U, 0x64E4CB1EU,
        0x6C6C4510U, 0xED2D04BBU, 0xEFAF87EDU, 0x6EEEC646U, 0xEAAA8141U, 0x6BEBC0EAU, 0x696943BCU, 0xE8280217U,
        0x78785FA0U, 0xF9391E0BU, 0xFBBB9D5DU, 0x7AFADCF6U, 0xFEBE9BF1U, 0x7FFFDA5AU, 0x7D7D590CU, 0xFC3C18A7U,
        0xF4B496A9U, 0x75F5D702U, 0x77775454U, 0xF63615FFU, 0x727252F8U, 0xF3331353U, 0xF1B19005U, 0x70F0D1AEU,
        0x50506AC0U, 0xD1112B6BU, 0xD393A83DU, 0x52D2E996U, 0xD696AE91U, 0x57D7EF3AU, 0x55556C6CU, 0xD4142DC7U,
        0xDC9CA3C9U, 0x5DDDE262U, 0x5F5F6134U, 0xDE1E209FU, 0x5A5A6798U, 0xDB1B2633U, 0xD999A565U, 0x58D8E4CEU,
        0xC888B979U, 0x49C9F8D2U, 0x4B4B7B84U, 0xCA0A3A2FU, 0x4E4E7D28U, 0xCF0F3C83U, 0xCD8DBFD5U, 0x4CCCFE7EU,
        0x44447070U, 0xC50531DBU, 0xC787B28DU, 0x46C6F326U, 0xC282B421U, 0x43C3F58AU, 0x414176DCU, 0xC0003777U,
        0x40005999U, 0xC1411832U, 0xC3C39B64U, 0x4282DACFU, 0xC6C69DC8U, 0x4787DC63U, 0x45055F35U, 0xC4441E9EU,
        0xCCCC9090U, 0x4D8DD13BU, 0x4F0F526DU, 0xCE4E13C6U, 0x4A0A54C1U, 0xCB4B156AU, 0xC9C9963CU, 0x4888D797U,
        0xD8D88A20U, 0x5999CB8BU, 0x5B1B48DDU, 0xDA5A0976U, 0x5E1E4E71U, 0xDF5F0FDAU, 0xDDDD8C8CU, 0x5C9CCD27U,
        0x54144329U, 0xD5550282U, 0xD7D781D4U, 0x5696C07FU, 0xD2D28778U, 0x5393C6D3U, 0x51114585U, 0xD050042EU,
        0xF0F0BF40U, 0x71B1FEEBU, 0x73337DBDU, 0xF2723C16U, 0x76367B11U, 0xF7773ABAU, 0xF5F5B9ECU, 0x74B4F847U,
        0x7C3C7649U, 0xFD7D37E2U, 0xFFFFB4B4U, 0x7EBEF51FU, 0xFAFAB218U, 0x7BBBF3B3U, 0x793970E5U, 0xF878314EU,
        0x68286CF9U, 0xE9692D52U, 0xEBEBAE04U, 0x6AAAEFAFU, 0xEEEEA8A8U, 0x6FAFE903U, 0x6D2D6A55U, 0xEC6C2BFEU,
        0xE4E4A5F0U, 0x65A5E45BU, 0x6727670DU, 0xE66626A6U, 0x622261A1U, 0xE363200AU, 0xE1E1A35CU, 0x60A0E2F7U,
        0xA0A0D580U, 0x21E1942BU, 0x2363177DU, 0xA22256D6U, 0x266611D1U, 0xA727507AU, 0xA5A5D32CU, 0x24E49287U,
        0x2C6C1C89U, 0xAD2D5D22U, 0xAFAFDE74U, 0x2EEE9FDFU, 0xAAAAD8D8U, 0x2BEB9973U, 0x29691A25U, 0xA8285B8EU,
        0x38780639U, 0xB9394792U, 0xBBBBC4C4U, 0x3AFA856FU, 0xBEBEC268U, 0x3FFF83C3U, 0x3D7D0095U, 0xBC3C413EU,
        0xB4B4CF30U, 0x35F58E9BU, 0x37770DCDU, 0xB6364C66U, 0x32720B61U, 0xB3334ACAU, 0xB1B1C99CU, 0x30F08837U,
        0x10503359U, 0x911172F2U, 0x9393F1A4U, 0x12D2B00FU, 0x9696F708U, 0x17D7B6A3U, 0x155535F5U, 0x9414745EU,
        0x9C9CFA50U, 0x1DDDBBFBU, 0x1F5F38ADU, 0x9E1E7906U, 0x1A5A3E01U, 0x9B1B7FAAU, 0x9999FCFCU, 0x18D8BD57U,
        0x8888E0E0U, 0x09C9A14BU, 0x0B4B221DU, 0x8A0A63B6U, 0x0E4E24B1U, 0x8F0F651AU, 0x8D8DE64CU, 0x0CCCA7E7U,
        0x044429E9U, 0x85056842U, 0x8787EB14U, 0x06C6AABFU, 0x8282EDB8U, 0x03C3AC13U, 0x01412F45U, 0x80006EEEU
    };

    uint32_t crc_initial_value = INITIAL_CRC32_VALUE;

    if (NULL_PTR != last_crc_ptr) {
        crc_initial_value = *last_crc_ptr;
    }

    return Crc32Base(
               crc_table,
               crc_data_ptr,
               crc_length,
               crc_initial_value,
               FINAL_XOR_VALUE,
               REFLECTED_OUTPUT,
               REFLECTED_INPUT,
               FINAL_XOR
           );
}
".

(** Src/crc/crc32_variants/crc32_xfer.c *)
Definition text_crc32_xfer_c : string :=
"/****************************************************************************
 *
 *   Copyright (c) 2023 IMProject Development Team. All rights reserved.
 *   Authors: Igor Misic <igy1000mb@gmail.com>
 *
 * Redistribution and use in source and binary forms, with or without
 * modification, are permitted provided that the following conditions
 * are met:
 *
 * 1. Redistributions of source code must retain the above copyright
 *    notice, this list of conditions and the following disclaimer.
 * 2. Redistributions in binary form must reproduce the above copyright
 *    notice, this list of conditions and the following disclaimer in
 *    the documentation and/or other materials provided with the
 *    distribution.
 * 3. Neither the name IMProject nor the names of its contributors may be
 *    used to endorse or promote products derived from this software
 *    without specific prior written permission.
 *
 * THIS SOFTWARE IS PROVIDED BY THE COPYRIGHT HOLDERS AND CONTRIBUTORS
 * ""AS IS"" AND ANY EXPRESS OR IMPLIED WARRANTIES, INCLUDING, BUT NOT
 * LIMITED TO, THE IMPLIED WARRANTIES OF MERCHANTABILITY AND FITNESS
 * FOR A PARTICULAR PURPOSE ARE DISCLAIMED. IN NO EVENT SHALL THE
 * COPYRIGHT OWNER OR CONTRIBUTORS BE LIABLE FOR ANY DIRECT, INDIRECT,
 * INCIDENTAL, SPECIAL, EXEMPLARY, OR CONSEQUENTIAL DAMAGES (INCLUDING,
 * BUT NOT LIMITED TO, PROCUREMENT OF SUBSTITUTE GOODS OR SERVICES; LOSS
 * OF USE, DATA, OR PROFITS; OR BUSINESS INTERRUPTION) HOWEVER CAUSED
 * AND ON ANY THEORY OF LIABILITY, WHETHER IN CONTRACT, STRICT
 * LIABILITY, OR TORT (INCLUDING NEGLIGENCE OR OTHERWISE) ARISING IN
 * ANY WAY OUT OF THE USE OF THIS SOFTWARE, EVEN IF ADVISED OF THE
 * POSSIBILITY OF SUCH DAMAGE.
 *
 ****************************************************************************/

#include ""crc32_xfer.h""

#include ""crc32_base.h""

#define INITIAL_CRC32_VALUE (0x0U)
#define FINAL_XOR_VALUE (0x0U)
#define REFLECTED_OUTPUT (false)
#define REFLECTED_INPUT (false)
#define FINAL_XOR (false)

uint32_t
Crc32_xfer(
    const uint8_t* crc_data_ptr,
    uint32_t crc_length,
    const uint32_t* last_crc_ptr) {

    /* CRC32-XFER (Polynomial 0xAF) */
    static const uint32_t crc_table[256] = {
        0x00000000U, 0x000000AFU, 0x0000015EU, 0x000001F1U, 0x000002BCU, 0x00000213U, 0x000003E2U, 0x0000034DU,
        0x00000578U, 0x000005D7U, 0x00000426U, 0x00000489U, 0x000007C4U, 0x0000076BU, 0x0000069AU, 0x00000635U,
        0x00000AF0U, 0x00000A5FU, 0x00000BAEU, 0x00000B01U, 0x0000084CU, 0x000008E3U, 0x00000912U, 0x000009BDU,
        0x00000F88U, 0x00000F27U, 0x00000ED6U, 0x00000E79U, 0x00000D34U, 0x00000D9BU, 0x00000C6AU, 0x00000CC5U,
        0x000015E0U, 0x0000154FU, 0x000014BEU, 0x00001411U, 0x0000175CU, 0x000017F3U, 0x00001602U, 0x000016ADU,
        0x00001098U, 0x00001037U, 0x000011C6U, 0x00001169U, 0x00001224U, 0x0000128BU, 0x0000137AU, 0x000013D5U,
        0x00001F10U, 0x00001FBFU, 0x00001E4EU, 0x00001EE1U, 0x00001DACU, 0x00001D03U, 0x00001CF2U, 0x00001C5DU,
        0x00001A68U, 0x00001AC7U, 0x00001B36U, 0x00001B99U, 0x000018D4U, 0x0000187BU, 0x0000198AU, 0x00001925U,
        0x00002BC0U, 0x00002B6FU, 0x00002A9EU, 0x00002A31U, 0x0000297CU, 0x000029D3U, 0x00002822U, 0x0000288DU,
        0x00002EB8U, 0x00002E17U, 0x00002FE6U, 0x00002F49U, 0x00002C04U, 0x00002CABU, 0x00002D5AU, 0x00002DF5U,
        0x00002130U, 0x0000219FU, 0x0000206EU, 0x000020C1U, 0x0000238CU, 0x00002323U, 0x000022D2U, 0x0000227DU,
        0x00002448U, 0x000024E7U, 0x00002516U, 0x000025B9U, 0x000026F4U, 0x0000265BU, 0x000027AAU, 0x00002705U,
        0x00003E20U, 0x00003E8FU, 0x00003F7EU, 0x00003FD1U, 0x00003C9CU, 0x00003C33U, 0x00003DC2U, 0x00003D6DU,
        0x00003B58U, 0x00003BF7U, 0x00003A06U, 0x00003AA9U, 0x000039E4U, 0x0000394BU, 0x000038BAU, 0x00003815U,
        0x000034D0U, 0x0000347FU, 0x0000358EU, 0x00003521U, 0x0000366CU, 0x000036C3U, 0x00003732U, 0x0000379DU,
        0x000031A8U, 0x00003107U, 0x000030F6U, 0x00003059U, 0x00003314U, 0x000033BBU, 0x0000324AU, 0x000032E5U,
        0x00005780U, 0x0000572FU, 0x000056DEU, 0x00005671U, 0x0000553CU, 0x00005593U, 0x00005462U, 0x000054CDU,
        0x000052F8U, 0x00005257U, 0x000053A6U, 0x00005309U, 0x00005044U, 0x000050EBU, 0x0000511AU, 0x000051B5U,
        0x00005D70U, 0x00005DDFU, 0x00005C2EU, 0x00005C81U, 0x00005FCCU, 0x00005F63U, 0x00005E92U, 0x00005E3DU,
        0x00005808U, 0x000058A7U, 0x00005956U, 0x000059F9U, 0x00005AB4U, 0x00005A1BU, 0x00005BEAU, 0x00005B45U,
        0x00004260U, 0x000042CFU, 0x0000433EU, 0x00004391U, 0x000040DCU, 0x00004073U, 0x00004182U, 0x0000412DU,
        0x00004718U, 0x000047B7U, 0x00004646U, 0x000046E9U, 0x000045A4U, 0x0000450BU, 0x000044FAU, 0x00004455U,
        0x00004890U, 0x0000483FU, 0x000049CEU, 0x00004961U, 0x00004A2CU, 0x00004A83U, 0x00004B72U, 0x00004BDDU,
        0x00004DE8U, 0x00004D47U, 0x00004CB6U, 0x00004C19U, 0x00004F54U, 0x00004FFBU, 0x00004E0AU, 0x00004EA5U,
        0x00007C40U, 0x00007CEFU, 0x00007D1EU, 0x00007DB1U, 0x00007EFCU, 0x00007E53U, 0x00007FA2U, 0x00007F0DU,
        0x00007938U, 0x00007997U, 0x00007866U, 0x000078C9U, 0x00007B84U, 0x00007B2BU, 0x00007ADAU, 0x00007A75U,
        0x000076B0U, 0x0000761FU, 0x000077EEU, 0x00007741U, 0x0000740CU, 0x000074A3U, 0x00007552U, 0x000075FDU,
        0x000073C8U, 0x00007367U, 0x00007296U, 0x00007239U, 0x00007174U, 0x000071DBU, 0x0000702AU, 0x00007085U,
        0x000069A0U, 0x0000690FU, 0x000068FEU, 0x00006851U, 0x00006B1CU, 0x00006BB3U, 0x00006A42U, 0x00006AEDU,
        0x00006CD8U, 0x00006C77U, 0x00006D86U, 0x00006D29U, 0x00006E64U, 0x00006ECBU, 0x00006F3AU, 0x00006F95U,
        0x00006350U, 0x000063FFU, 0x0000620EU, 0x000062A1U, 0x000061ECU, 0x00006143U, 0x000060B2U, 0x0000601DU,
        0x00006628U, 0x00006687U, 0x00006776U, 0x000067D9U, 0x00006494U, 0x0000643BU, 0x000065CAU, 0x00006565U
    };

    uint32_t crc_initial_value = INITIAL_CRC32_VALUE;

    if (NULL_PTR != last_crc_ptr) {
        crc_initial_value = *last_crc_ptr;
    }

    return Crc32Base(
               crc_table,
               crc_data_ptr,
               crc_length,
               crc_initial_value,
               FINAL_XOR_VALUE,
               REFLECTED_OUTPUT,
               REFLECTED_INPUT,
               FINAL_XOR
           );
}
".

(** the files by name *)
Definition text_crc32 : list (string * string) :=
  (("crc32.c", text_crc32_c)
   :: ("crc32_bzip2.c", text_crc32_bzip2_c)
   :: ("crc32_c.c", text_crc32_c_c)
   :: ("crc32_d.c", text_crc32_d_c)
   :: ("crc32_jamcrc.c", text_crc32_jamcrc_c)
   :: ("crc32_mpeg2.c", text_crc32_mpeg2_c)
   :: ("crc32_posix.c", text_crc32_posix_c)
   :: ("crc32_q.c", text_crc32_q_c)
   :: ("crc32_xfer.c", text_crc32_xfer_c)
   :: nil)%list.
