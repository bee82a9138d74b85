(** * Specification of cyclic redundancy checks

    A polynomial over GF(2) is a natural number: bit [i] is the coefficient of x^i.  Adding
    polynomials is [Z.lxor], multiplying by x^n is multiplying by [2 ^ n]. *)
From Coq Require Import ZArith.
From stdpp Require Import list numbers.
Open Scope Z_scope.

(** product of polynomials *)
Fixpoint mul_pos (a : positive) (b : Z) : Z :=
  match a with
  | xH => b
  | xO a => 2 * mul_pos a b
  | xI a => Z.lxor b (2 * mul_pos a b)
  end.
Definition mul (a b : Z) : Z := match a with Zpos a => mul_pos a b | _ => 0 end.

(** [r] is the remainder of [a] divided by [g], a polynomial of degree [w] *)
Definition remainder (w g a r : Z) : Prop :=
  0 <= r < 2 ^ w /\ exists q, 0 <= q /\ a = Z.lxor (mul q g) r.

(** the number written by a list of bits, most significant first *)
Definition value (bits : list bool) : Z := fold_left (fun v b => 2 * v + Z.b2z b) bits 0.

(** the [n] low bits of a number, most significant first *)
Fixpoint bits_of (n : nat) (x : Z) : list bool :=
  match n with O => [] | S n => Z.testbit x (Z.of_nat n) :: bits_of n x end.

(** the parameters of a CRC, as in the usual catalogues (R. Williams, "A painless guide to
    CRC error detection algorithms"; G. Cook, "Catalogue of parametrised CRC algorithms"):
    width, polynomial without its leading term, initial value of the register, whether the
    bits of each input byte are taken least significant first, whether the bits of the result
    are reversed, and the value finally added *)
Record crc_params := Crc_params {
  width : Z; poly : Z; init : Z; refin : bool; refout : bool; xorout : Z }.

(** the polynomial with its leading term *)
Definition generator (P : crc_params) : Z := 2 ^ width P + poly P.

(** the bits of a message in the order in which the CRC takes them *)
Definition message_bits (P : crc_params) (msg : list Z) : list bool :=
  concat (map (fun b => if refin P then rev (bits_of 8 b) else bits_of 8 b) msg).

(** the dividend of a sequence of bits: the message times x^w, with the initial value added
    to its first [w] bits *)
Definition dividend (P : crc_params) (bits : list bool) : Z :=
  Z.lxor (value bits * 2 ^ width P) (init P * 2 ^ Z.of_nat (length bits)).

(** from the remainder to the result *)
Definition output (P : crc_params) (r : Z) : Z :=
  Z.lxor (if refout P then value (rev (bits_of (Z.to_nat (width P)) r)) else r) (xorout P).

(** [c] is the CRC of [msg] *)
Definition is_crc (P : crc_params) (msg : list Z) (c : Z) : Prop :=
  exists r, remainder (width P) (generator P) (dividend P (message_bits P msg)) r /\
    c = output P r.

(** the table of a generator [g] of degree [w]: the remainders of the 256 polynomials
    of degree at most 7, times x^w *)
Definition is_table (w g : Z) (t : list Z) : Prop :=
  length t = 256%nat /\
  forall i, (i < 256)%nat -> remainder w g (Z.of_nat i * 2 ^ w) (nth i t 0).

(** the bytes of a CRC in the order in which it is sent: least significant byte first if the
    bits are reversed, most significant first otherwise *)
Definition crc_bytes (P : crc_params) (c : Z) : list Z :=
  let low_first := map (fun i => (c / 2 ^ (8 * Z.of_nat i)) mod 2 ^ 8)
                     (seq 0 (Z.to_nat (width P / 8))) in
  if refout P then low_first else rev low_first.

(** what a correct message with its CRC gives: the CRC of the final value alone, from an
    empty register *)
Definition is_residue (P : crc_params) (r : Z) : Prop :=
  is_crc (Crc_params (width P) (poly P) 0 (refin P) (refout P) (xorout P))
    (crc_bytes P (xorout P)) r.

(** ** The catalogue

    Names are those of the functions; other common names in comments. *)

Definition crc8 := Crc_params 8 0x07 0x00 false false 0x00.               (* SMBUS *)
Definition crc8_8h2f := Crc_params 8 0x2f 0xff false false 0xff.          (* AUTOSAR *)
Definition crc8_cdma2000 := Crc_params 8 0x9b 0xff false false 0x00.
Definition crc8_darc := Crc_params 8 0x39 0x00 true true 0x00.
Definition crc8_dvbS2 := Crc_params 8 0xd5 0x00 false false 0x00.
Definition crc8_ebu := Crc_params 8 0x1d 0xff true true 0x00.             (* TECH-3250 *)
Definition crc8_icode := Crc_params 8 0x1d 0xfd false false 0x00.
Definition crc8_itu := Crc_params 8 0x07 0x00 false false 0x55.           (* I-432-1 *)
Definition crc8_maxim := Crc_params 8 0x31 0x00 true true 0x00.           (* MAXIM-DOW *)
Definition crc8_rohc := Crc_params 8 0x07 0xff true true 0x00.
Definition crc8_saeJ1850 := Crc_params 8 0x1d 0xff false false 0xff.
Definition crc8_saeJ1850Zero := Crc_params 8 0x1d 0x00 false false 0x00.  (* GSM-A *)
Definition crc8_wcdma := Crc_params 8 0x9b 0x00 true true 0x00.

Definition crc16_a := Crc_params 16 0x1021 0xc6c6 true true 0x0000.       (* ISO 14443-3-A *)
Definition crc16_arc := Crc_params 16 0x8005 0x0000 true true 0x0000.
Definition crc16_augCcit := Crc_params 16 0x1021 0x1d0f false false 0x0000. (* SPI-FUJITSU *)
Definition crc16_buypass := Crc_params 16 0x8005 0x0000 false false 0x0000. (* UMTS *)
Definition crc16_ccitFalse := Crc_params 16 0x1021 0xffff false false 0x0000. (* IBM-3740 *)
Definition crc16_ccitZero := Crc_params 16 0x1021 0x0000 false false 0x0000. (* XMODEM *)
Definition crc16_cdma2000 := Crc_params 16 0xc867 0xffff false false 0x0000.
Definition crc16_dds110 := Crc_params 16 0x8005 0x800d false false 0x0000.
Definition crc16_dectR := Crc_params 16 0x0589 0x0000 false false 0x0001.
Definition crc16_dectX := Crc_params 16 0x0589 0x0000 false false 0x0000.
Definition crc16_dnp := Crc_params 16 0x3d65 0x0000 true true 0xffff.
Definition crc16_en13757 := Crc_params 16 0x3d65 0x0000 false false 0xffff.
Definition crc16_genibus := Crc_params 16 0x1021 0xffff false false 0xffff.
Definition crc16_kermit := Crc_params 16 0x1021 0x0000 true true 0x0000.
Definition crc16_maxim := Crc_params 16 0x8005 0x0000 true true 0xffff.
Definition crc16_mcrf4xx := Crc_params 16 0x1021 0xffff true true 0x0000.
Definition crc16_modbus := Crc_params 16 0x8005 0xffff true true 0x0000.
Definition crc16_riello := Crc_params 16 0x1021 0xb2aa true true 0x0000.
Definition crc16_t10Dif := Crc_params 16 0x8bb7 0x0000 false false 0x0000.
Definition crc16_teledisk := Crc_params 16 0xa097 0x0000 false false 0x0000.
Definition crc16_tms37157 := Crc_params 16 0x1021 0x89ec true true 0x0000.
Definition crc16_usb := Crc_params 16 0x8005 0xffff true true 0xffff.
Definition crc16_x25 := Crc_params 16 0x1021 0xffff true true 0xffff.     (* IBM-SDLC *)

Definition crc32 := Crc_params 32 0x04c11db7 0xffffffff true true 0xffffffff. (* ISO-HDLC *)
Definition crc32_bzip2 := Crc_params 32 0x04c11db7 0xffffffff false false 0xffffffff.
Definition crc32_c := Crc_params 32 0x1edc6f41 0xffffffff true true 0xffffffff. (* ISCSI *)
Definition crc32_d := Crc_params 32 0xa833982b 0xffffffff true true 0xffffffff. (* BASE91-D *)
Definition crc32_jamcrc := Crc_params 32 0x04c11db7 0xffffffff true true 0x00000000.
Definition crc32_mpeg2 := Crc_params 32 0x04c11db7 0xffffffff false false 0x00000000.
Definition crc32_posix := Crc_params 32 0x04c11db7 0x00000000 false false 0xffffffff. (* CKSUM *)
Definition crc32_q := Crc_params 32 0x814141ab 0x00000000 false false 0x00000000. (* AIXM *)
Definition crc32_xfer := Crc_params 32 0x000000af 0x00000000 false false 0x00000000.
