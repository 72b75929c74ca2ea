(** Crc32.v - CRC-32/ISO-HDLC (crate crc, [crc::CRC_32_ISO_HDLC]; used at
    src/header/mod.rs:403-411 and src/partition.rs:244, 313), in its defining bitwise form:
    reflected polynomial 0xEDB88320, initial value and final xor 0xFFFFFFFF. *)
From Verif Require Export Base.

Definition crc_poly : N := 0xEDB88320.
Definition crc_ones : N := 0xFFFFFFFF.
Definition crc_bit (c : N) : N :=
  if N.testbit c 0 then N.lxor (N.shiftr c 1) crc_poly else N.shiftr c 1.
Definition crc_8 (c : N) : N :=
  crc_bit (crc_bit (crc_bit (crc_bit (crc_bit (crc_bit (crc_bit (crc_bit c))))))).
Definition crc_byte (c : N) (b : byte) : N := crc_8 (N.lxor c (Byte.to_N b)).
Definition crc_update (c : N) (l : list byte) : N := fold_left crc_byte l c.
(** [calculate_crc32] (src/header/mod.rs:405-411), [CRC_32.checksum] (src/partition.rs:313). *)
Definition crc32 (l : list byte) : N := N.lxor (crc_update crc_ones l) crc_ones.
