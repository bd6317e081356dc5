(** Generated by tools/ctc/c2v.py from the sources in /repo; see DESIGN.md. *)
(** Numbers for the functions, as in the comments of Model/Ct*.v. *)
From Coq Require Import ZArith.
From Verif Require Import Model.CtLang.
Local Open Scope Z_scope.

(** vole.c:58 *)
Definition f_ChalDec : positive := 1.
(** vole.c:18 *)
Definition f_ConvertToVole : positive := 2.
(** random_oracle.c:25 *)
Definition f_H0_final : positive := 3.
(** random_oracle.c:17 *)
Definition f_H0_init : positive := 4.
(** random_oracle.c:21 *)
Definition f_H0_update : positive := 5.
(** random_oracle.c:43 *)
Definition f_H0_x4_final : positive := 6.
(** random_oracle.c:34 *)
Definition f_H0_x4_init : positive := 7.
(** random_oracle.c:38 *)
Definition f_H0_x4_update : positive := 8.
(** random_oracle.c:62 *)
Definition f_H1_final : positive := 9.
(** random_oracle.c:54 *)
Definition f_H1_init : positive := 10.
(** random_oracle.c:58 *)
Definition f_H1_update : positive := 11.
(** random_oracle.c:78 *)
Definition f_H2_final : positive := 12.
(** random_oracle.c:70 *)
Definition f_H2_init : positive := 13.
(** random_oracle.c:74 *)
Definition f_H2_update : positive := 14.
(** random_oracle.c:94 *)
Definition f_H3_final : positive := 15.
(** random_oracle.c:86 *)
Definition f_H3_init : positive := 16.
(** random_oracle.c:90 *)
Definition f_H3_update : positive := 17.
(** sha3/opt64/KeccakP-1600-opt64.c:523 *)
Definition f_KeccakF1600_FastLoop_Absorb : positive := 18.
(** sha3/opt64/KeccakP-1600-opt64.c:193 *)
Definition f_KeccakP1600_AddBytes : positive := 19.
(** sha3/opt64/KeccakP-1600-opt64.c:100 *)
Definition f_KeccakP1600_AddBytesInLane : positive := 20.
(** sha3/opt64/KeccakP-1600-opt64.c:124 *)
Definition f_KeccakP1600_AddLanes : positive := 21.
(** sha3/opt64/KeccakP-1600-opt64.c:441 *)
Definition f_KeccakP1600_ExtractBytes : positive := 22.
(** sha3/opt64/KeccakP-1600-opt64.c:372 *)
Definition f_KeccakP1600_ExtractBytesInLane : positive := 23.
(** sha3/opt64/KeccakP-1600-opt64.c:407 *)
Definition f_KeccakP1600_ExtractLanes : positive := 24.
(** sha3/opt64/KeccakP-1600-opt64.c:85 *)
Definition f_KeccakP1600_Initialize : positive := 25.
(** sha3/opt64/KeccakP-1600-opt64.c:342 *)
Definition f_KeccakP1600_Permute_24rounds : positive := 26.
(** /repo/sha3/opt64/PlSnP-Fallback.inc:83 *)
Definition f_KeccakP1600times4_AddByte : positive := 27.
(** /repo/sha3/opt64/PlSnP-Fallback.inc:92 *)
Definition f_KeccakP1600times4_AddBytes : positive := 28.
(** /repo/sha3/opt64/PlSnP-Fallback.inc:205 *)
Definition f_KeccakP1600times4_ExtractBytes : positive := 29.
(** /repo/sha3/opt64/PlSnP-Fallback.inc:71 *)
Definition f_KeccakP1600times4_InitializeAll : positive := 30.
(** /repo/sha3/opt64/PlSnP-Fallback.inc:147 *)
Definition f_KeccakP1600times4_PermuteAll_24rounds : positive := 31.
(** /repo/sha3/opt64/PlSnP-Fallback.inc:66 *)
Definition f_KeccakP1600times4_StaticInitialize : positive := 32.
(** /repo/sha3/KeccakSponge.inc:151 *)
Definition f_KeccakWidth1600_SpongeAbsorb : positive := 33.
(** /repo/sha3/KeccakSponge.inc:212 *)
Definition f_KeccakWidth1600_SpongeAbsorbLastFewBits : positive := 34.
(** /repo/sha3/KeccakSponge.inc:134 *)
Definition f_KeccakWidth1600_SpongeInitialize : positive := 35.
(** /repo/sha3/KeccakSponge.inc:254 *)
Definition f_KeccakWidth1600_SpongeSqueeze : positive := 36.
(** /repo/sha3/KeccakSpongetimes4.inc:55 *)
Definition f_KeccakWidth1600times4_SpongeAbsorb : positive := 37.
(** /repo/sha3/KeccakSpongetimes4.inc:120 *)
Definition f_KeccakWidth1600times4_SpongeAbsorbLastFewBits : positive := 38.
(** /repo/sha3/KeccakSpongetimes4.inc:38 *)
Definition f_KeccakWidth1600times4_SpongeInitialize : positive := 39.
(** /repo/sha3/KeccakSpongetimes4.inc:149 *)
Definition f_KeccakWidth1600times4_SpongeSqueeze : positive := 40.
(** sha3/KeccakHash.c:65 *)
Definition f_Keccak_HashFinal : positive := 41.
(** sha3/KeccakHashtimes4.c:49 *)
Definition f_Keccak_HashFinaltimes4 : positive := 42.
(** sha3/KeccakHash.c:22 *)
Definition f_Keccak_HashInitialize : positive := 43.
(** sha3/KeccakHashtimes4.c:24 *)
Definition f_Keccak_HashInitializetimes4 : positive := 44.
(** sha3/KeccakHash.c:76 *)
Definition f_Keccak_HashSqueeze : positive := 45.
(** sha3/KeccakHashtimes4.c:60 *)
Definition f_Keccak_HashSqueezetimes4 : positive := 46.
(** sha3/KeccakHash.c:38 *)
Definition f_Keccak_HashUpdate : positive := 47.
(** sha3/KeccakHashtimes4.c:40 *)
Definition f_Keccak_HashUpdatetimes4 : positive := 48.
(** vc.c:103 *)
Definition f_NumRec : positive := 49.
(** /verif/tools/ctc/inc/x86intrin.h:3 *)
Definition f___rorb : positive := 50.
(** aes.c:75 *)
Definition f_add_round_key : positive := 51.
(** aes.c:252 *)
Definition f_aes128_encrypt_block : positive := 52.
(** aes.c:198 *)
Definition f_aes128_init_round_keys : positive := 53.
(** aes.c:261 *)
Definition f_aes192_encrypt_block : positive := 54.
(** aes.c:202 *)
Definition f_aes192_init_round_keys : positive := 55.
(** aes.c:270 *)
Definition f_aes256_encrypt_block : positive := 56.
(** aes.c:206 *)
Definition f_aes256_init_round_keys : positive := 57.
(** faest_aes.c:512 *)
Definition f_aes_enc_backward_128 : positive := 58.
(** faest_aes.c:480 *)
Definition f_aes_enc_backward_128_1 : positive := 59.
(** faest_aes.c:987 *)
Definition f_aes_enc_backward_192 : positive := 60.
(** faest_aes.c:956 *)
Definition f_aes_enc_backward_192_1 : positive := 61.
(** faest_aes.c:1480 *)
Definition f_aes_enc_backward_256 : positive := 62.
(** faest_aes.c:1450 *)
Definition f_aes_enc_backward_256_1 : positive := 63.
(** faest_aes.c:557 *)
Definition f_aes_enc_constraints_Mkey_0_128 : positive := 64.
(** faest_aes.c:1032 *)
Definition f_aes_enc_constraints_Mkey_0_192 : positive := 65.
(** faest_aes.c:1525 *)
Definition f_aes_enc_constraints_Mkey_0_256 : positive := 66.
(** faest_aes.c:580 *)
Definition f_aes_enc_constraints_Mkey_1_128 : positive := 67.
(** faest_aes.c:1055 *)
Definition f_aes_enc_constraints_Mkey_1_192 : positive := 68.
(** faest_aes.c:1547 *)
Definition f_aes_enc_constraints_Mkey_1_256 : positive := 69.
(** faest_aes.c:421 *)
Definition f_aes_enc_forward_128 : positive := 70.
(** faest_aes.c:364 *)
Definition f_aes_enc_forward_128_1 : positive := 71.
(** faest_aes.c:897 *)
Definition f_aes_enc_forward_192 : positive := 72.
(** faest_aes.c:842 *)
Definition f_aes_enc_forward_192_1 : positive := 73.
(** faest_aes.c:1391 *)
Definition f_aes_enc_forward_256 : positive := 74.
(** faest_aes.c:1337 *)
Definition f_aes_enc_forward_256_1 : positive := 75.
(** aes.c:230 *)
Definition f_aes_encrypt : positive := 76.
(** aes.c:393 *)
Definition f_aes_extend_witness : positive := 77.
(** aes.c:62 *)
Definition f_aes_increment_iv : positive := 78.
(** faest_aes.c:159 *)
Definition f_aes_key_schedule_backward_1 : positive := 79.
(** faest_aes.c:230 *)
Definition f_aes_key_schedule_backward_128 : positive := 80.
(** faest_aes.c:709 *)
Definition f_aes_key_schedule_backward_192 : positive := 81.
(** faest_aes.c:1188 *)
Definition f_aes_key_schedule_backward_256 : positive := 82.
(** faest_aes.c:284 *)
Definition f_aes_key_schedule_constraints_Mkey_0_128 : positive := 83.
(** faest_aes.c:762 *)
Definition f_aes_key_schedule_constraints_Mkey_0_192 : positive := 84.
(** faest_aes.c:1243 *)
Definition f_aes_key_schedule_constraints_Mkey_0_256 : positive := 85.
(** faest_aes.c:334 *)
Definition f_aes_key_schedule_constraints_Mkey_1_128 : positive := 86.
(** faest_aes.c:812 *)
Definition f_aes_key_schedule_constraints_Mkey_1_192 : positive := 87.
(** faest_aes.c:1301 *)
Definition f_aes_key_schedule_constraints_Mkey_1_256 : positive := 88.
(** faest_aes.c:129 *)
Definition f_aes_key_schedule_forward_1 : positive := 89.
(** faest_aes.c:208 *)
Definition f_aes_key_schedule_forward_128 : positive := 90.
(** faest_aes.c:688 *)
Definition f_aes_key_schedule_forward_192 : positive := 91.
(** faest_aes.c:1167 *)
Definition f_aes_key_schedule_forward_256 : positive := 92.
(** faest_aes.c:2590 *)
Definition f_aes_prove : positive := 93.
(** faest_aes.c:598 *)
Definition f_aes_prove_128 : positive := 94.
(** faest_aes.c:1072 *)
Definition f_aes_prove_192 : positive := 95.
(** faest_aes.c:1563 *)
Definition f_aes_prove_256 : positive := 96.
(** faest_aes.c:2617 *)
Definition f_aes_verify : positive := 97.
(** faest_aes.c:634 *)
Definition f_aes_verify_128 : positive := 98.
(** faest_aes.c:1110 *)
Definition f_aes_verify_192 : positive := 99.
(** faest_aes.c:1601 *)
Definition f_aes_verify_256 : positive := 100.
(** fields.c:175 *)
Definition f_bf128_bit_to_uint64_mask : positive := 101.
(** fields.c:109 *)
Definition f_bf128_byte_combine : positive := 102.
(** fields.c:117 *)
Definition f_bf128_byte_combine_bits : positive := 103.
(** fields.c:213 *)
Definition f_bf128_dbl : positive := 104.
(** /repo/fields.h:174 *)
Definition f_bf128_from_bf8 : positive := 105.
(** /repo/fields.h:180 *)
Definition f_bf128_from_bit : positive := 106.
(** /repo/fields.h:144 *)
Definition f_bf128_load : positive := 107.
(** fields.c:183 *)
Definition f_bf128_mul : positive := 108.
(** fields.c:195 *)
Definition f_bf128_mul_64 : positive := 109.
(** /repo/fields.h:189 *)
Definition f_bf128_one : positive := 110.
(** /repo/fields.h:157 *)
Definition f_bf128_store : positive := 111.
(** fields.c:221 *)
Definition f_bf128_sum_poly : positive := 112.
(** /repo/fields.h:184 *)
Definition f_bf128_zero : positive := 113.
(** fields.c:327 *)
Definition f_bf192_bit_to_uint64_mask : positive := 114.
(** fields.c:255 *)
Definition f_bf192_byte_combine : positive := 115.
(** fields.c:263 *)
Definition f_bf192_byte_combine_bits : positive := 116.
(** fields.c:365 *)
Definition f_bf192_dbl : positive := 117.
(** /repo/fields.h:253 *)
Definition f_bf192_from_bf8 : positive := 118.
(** /repo/fields.h:259 *)
Definition f_bf192_from_bit : positive := 119.
(** /repo/fields.h:220 *)
Definition f_bf192_load : positive := 120.
(** fields.c:335 *)
Definition f_bf192_mul : positive := 121.
(** fields.c:347 *)
Definition f_bf192_mul_64 : positive := 122.
(** /repo/fields.h:268 *)
Definition f_bf192_one : positive := 123.
(** fields.c:314 *)
Definition f_bf192_shift_left_1 : positive := 124.
(** /repo/fields.h:236 *)
Definition f_bf192_store : positive := 125.
(** fields.c:373 *)
Definition f_bf192_sum_poly : positive := 126.
(** /repo/fields.h:263 *)
Definition f_bf192_zero : positive := 127.
(** fields.c:484 *)
Definition f_bf256_bit_to_uint64_mask : positive := 128.
(** fields.c:414 *)
Definition f_bf256_byte_combine : positive := 129.
(** fields.c:422 *)
Definition f_bf256_byte_combine_bits : positive := 130.
(** fields.c:536 *)
Definition f_bf256_dbl : positive := 131.
(** /repo/fields.h:329 *)
Definition f_bf256_from_bf8 : positive := 132.
(** /repo/fields.h:335 *)
Definition f_bf256_from_bit : positive := 133.
(** /repo/fields.h:299 *)
Definition f_bf256_load : positive := 134.
(** fields.c:492 *)
Definition f_bf256_mul : positive := 135.
(** fields.c:511 *)
Definition f_bf256_mul_64 : positive := 136.
(** /repo/fields.h:344 *)
Definition f_bf256_one : positive := 137.
(** /repo/fields.h:312 *)
Definition f_bf256_store : positive := 138.
(** fields.c:548 *)
Definition f_bf256_sum_poly : positive := 139.
(** /repo/fields.h:339 *)
Definition f_bf256_zero : positive := 140.
(** /repo/fields.h:132 *)
Definition f_bf64_add : positive := 141.
(** /repo/fields.h:106 *)
Definition f_bf64_load : positive := 142.
(** fields.c:78 *)
Definition f_bf64_mul : positive := 143.
(** /repo/fields.h:126 *)
Definition f_bf64_one : positive := 144.
(** /repo/fields.h:122 *)
Definition f_bf64_zero : positive := 145.
(** fields.c:56 *)
Definition f_bf8_inv : positive := 146.
(** /repo/fields.h:75 *)
Definition f_bf8_load : positive := 147.
(** fields.c:35 *)
Definition f_bf8_mul : positive := 148.
(** fields.c:45 *)
Definition f_bf8_square : positive := 149.
(** /repo/fields.h:79 *)
Definition f_bf8_store : positive := 150.
(** faest_aes.c:79 *)
Definition f_column_to_row_major_and_shrink_V_128 : positive := 151.
(** faest_aes.c:95 *)
Definition f_column_to_row_major_and_shrink_V_192 : positive := 152.
(** faest_aes.c:111 *)
Definition f_column_to_row_major_and_shrink_V_256 : positive := 153.
(** universal_hashing.c:16 *)
Definition f_compute_h1 : positive := 154.
(** aes.c:41 *)
Definition f_compute_sbox : positive := 155.
(** aes.c:37 *)
Definition f_contains_zero : positive := 156.
(** vc.c:31 *)
Definition f_create_tree : positive := 157.
(** faest.c:138 *)
Definition f_dsignature_a_tilde : positive := 158.
(** faest.c:110 *)
Definition f_dsignature_c : positive := 159.
(** faest.c:187 *)
Definition f_dsignature_chall_3 : positive := 160.
(** faest.c:167 *)
Definition f_dsignature_com : positive := 161.
(** faest.c:128 *)
Definition f_dsignature_d : positive := 162.
(** faest.c:193 *)
Definition f_dsignature_iv : positive := 163.
(** faest.c:148 *)
Definition f_dsignature_pdec : positive := 164.
(** faest.c:119 *)
Definition f_dsignature_u_tilde : positive := 165.
(** faest_aes.c:1782 *)
Definition f_em_enc_backward_128 : positive := 166.
(** faest_aes.c:1753 *)
Definition f_em_enc_backward_128_1 : positive := 167.
(** faest_aes.c:2091 *)
Definition f_em_enc_backward_192 : positive := 168.
(** faest_aes.c:2063 *)
Definition f_em_enc_backward_192_1 : positive := 169.
(** faest_aes.c:2403 *)
Definition f_em_enc_backward_256 : positive := 170.
(** faest_aes.c:2372 *)
Definition f_em_enc_backward_256_1 : positive := 171.
(** faest_aes.c:1824 *)
Definition f_em_enc_constraints_Mkey_0_128 : positive := 172.
(** faest_aes.c:2133 *)
Definition f_em_enc_constraints_Mkey_0_192 : positive := 173.
(** faest_aes.c:2448 *)
Definition f_em_enc_constraints_Mkey_0_256 : positive := 174.
(** faest_aes.c:1851 *)
Definition f_em_enc_constraints_Mkey_1_128 : positive := 175.
(** faest_aes.c:2160 *)
Definition f_em_enc_constraints_Mkey_1_192 : positive := 176.
(** faest_aes.c:2475 *)
Definition f_em_enc_constraints_Mkey_1_256 : positive := 177.
(** faest_aes.c:1701 *)
Definition f_em_enc_forward_128 : positive := 178.
(** faest_aes.c:1657 *)
Definition f_em_enc_forward_128_1 : positive := 179.
(** faest_aes.c:2011 *)
Definition f_em_enc_forward_192 : positive := 180.
(** faest_aes.c:1966 *)
Definition f_em_enc_forward_192_1 : positive := 181.
(** faest_aes.c:2320 *)
Definition f_em_enc_forward_256 : positive := 182.
(** faest_aes.c:2275 *)
Definition f_em_enc_forward_256_1 : positive := 183.
(** faest_aes.c:1881 *)
Definition f_em_prove_128 : positive := 184.
(** faest_aes.c:2190 *)
Definition f_em_prove_192 : positive := 185.
(** faest_aes.c:2505 *)
Definition f_em_prove_256 : positive := 186.
(** faest_aes.c:1912 *)
Definition f_em_verify_128 : positive := 187.
(** faest_aes.c:2221 *)
Definition f_em_verify_192 : positive := 188.
(** faest_aes.c:2536 *)
Definition f_em_verify_256 : positive := 189.
(** aes.c:155 *)
Definition f_expand_key : positive := 190.
(** vc.c:51 *)
Definition f_expand_seeds : positive := 191.
(** faest_param.c.in:103 *)
Definition f_faest_128f_clear_private_key : positive := 192.
(** faest_param.c.in:28 *)
Definition f_faest_128f_keygen : positive := 193.
(** faest_param.c.in:83 *)
Definition f_faest_128f_sign : positive := 194.
(** faest_param.c.in:63 *)
Definition f_faest_128f_sign_with_randomness : positive := 195.
(** faest_param.c.in:48 *)
Definition f_faest_128f_validate_keypair : positive := 196.
(** faest_param.c.in:94 *)
Definition f_faest_128f_verify : positive := 197.
(** faest_param.c.in:103 *)
Definition f_faest_128s_clear_private_key : positive := 198.
(** faest_param.c.in:28 *)
Definition f_faest_128s_keygen : positive := 199.
(** faest_param.c.in:83 *)
Definition f_faest_128s_sign : positive := 200.
(** faest_param.c.in:63 *)
Definition f_faest_128s_sign_with_randomness : positive := 201.
(** faest_param.c.in:48 *)
Definition f_faest_128s_validate_keypair : positive := 202.
(** faest_param.c.in:94 *)
Definition f_faest_128s_verify : positive := 203.
(** faest_param.c.in:103 *)
Definition f_faest_192f_clear_private_key : positive := 204.
(** faest_param.c.in:28 *)
Definition f_faest_192f_keygen : positive := 205.
(** faest_param.c.in:83 *)
Definition f_faest_192f_sign : positive := 206.
(** faest_param.c.in:63 *)
Definition f_faest_192f_sign_with_randomness : positive := 207.
(** faest_param.c.in:48 *)
Definition f_faest_192f_validate_keypair : positive := 208.
(** faest_param.c.in:94 *)
Definition f_faest_192f_verify : positive := 209.
(** faest_param.c.in:103 *)
Definition f_faest_192s_clear_private_key : positive := 210.
(** faest_param.c.in:28 *)
Definition f_faest_192s_keygen : positive := 211.
(** faest_param.c.in:83 *)
Definition f_faest_192s_sign : positive := 212.
(** faest_param.c.in:63 *)
Definition f_faest_192s_sign_with_randomness : positive := 213.
(** faest_param.c.in:48 *)
Definition f_faest_192s_validate_keypair : positive := 214.
(** faest_param.c.in:94 *)
Definition f_faest_192s_verify : positive := 215.
(** faest_param.c.in:103 *)
Definition f_faest_256f_clear_private_key : positive := 216.
(** faest_param.c.in:28 *)
Definition f_faest_256f_keygen : positive := 217.
(** faest_param.c.in:83 *)
Definition f_faest_256f_sign : positive := 218.
(** faest_param.c.in:63 *)
Definition f_faest_256f_sign_with_randomness : positive := 219.
(** faest_param.c.in:48 *)
Definition f_faest_256f_validate_keypair : positive := 220.
(** faest_param.c.in:94 *)
Definition f_faest_256f_verify : positive := 221.
(** faest_param.c.in:103 *)
Definition f_faest_256s_clear_private_key : positive := 222.
(** faest_param.c.in:28 *)
Definition f_faest_256s_keygen : positive := 223.
(** faest_param.c.in:83 *)
Definition f_faest_256s_sign : positive := 224.
(** faest_param.c.in:63 *)
Definition f_faest_256s_sign_with_randomness : positive := 225.
(** faest_param.c.in:48 *)
Definition f_faest_256s_validate_keypair : positive := 226.
(** faest_param.c.in:94 *)
Definition f_faest_256s_verify : positive := 227.
(** faest_param.c.in:103 *)
Definition f_faest_em_128f_clear_private_key : positive := 228.
(** faest_param.c.in:28 *)
Definition f_faest_em_128f_keygen : positive := 229.
(** faest_param.c.in:83 *)
Definition f_faest_em_128f_sign : positive := 230.
(** faest_param.c.in:63 *)
Definition f_faest_em_128f_sign_with_randomness : positive := 231.
(** faest_param.c.in:48 *)
Definition f_faest_em_128f_validate_keypair : positive := 232.
(** faest_param.c.in:94 *)
Definition f_faest_em_128f_verify : positive := 233.
(** faest_param.c.in:103 *)
Definition f_faest_em_128s_clear_private_key : positive := 234.
(** faest_param.c.in:28 *)
Definition f_faest_em_128s_keygen : positive := 235.
(** faest_param.c.in:83 *)
Definition f_faest_em_128s_sign : positive := 236.
(** faest_param.c.in:63 *)
Definition f_faest_em_128s_sign_with_randomness : positive := 237.
(** faest_param.c.in:48 *)
Definition f_faest_em_128s_validate_keypair : positive := 238.
(** faest_param.c.in:94 *)
Definition f_faest_em_128s_verify : positive := 239.
(** faest_param.c.in:103 *)
Definition f_faest_em_192f_clear_private_key : positive := 240.
(** faest_param.c.in:28 *)
Definition f_faest_em_192f_keygen : positive := 241.
(** faest_param.c.in:83 *)
Definition f_faest_em_192f_sign : positive := 242.
(** faest_param.c.in:63 *)
Definition f_faest_em_192f_sign_with_randomness : positive := 243.
(** faest_param.c.in:48 *)
Definition f_faest_em_192f_validate_keypair : positive := 244.
(** faest_param.c.in:94 *)
Definition f_faest_em_192f_verify : positive := 245.
(** faest_param.c.in:103 *)
Definition f_faest_em_192s_clear_private_key : positive := 246.
(** faest_param.c.in:28 *)
Definition f_faest_em_192s_keygen : positive := 247.
(** faest_param.c.in:83 *)
Definition f_faest_em_192s_sign : positive := 248.
(** faest_param.c.in:63 *)
Definition f_faest_em_192s_sign_with_randomness : positive := 249.
(** faest_param.c.in:48 *)
Definition f_faest_em_192s_validate_keypair : positive := 250.
(** faest_param.c.in:94 *)
Definition f_faest_em_192s_verify : positive := 251.
(** faest_param.c.in:103 *)
Definition f_faest_em_256f_clear_private_key : positive := 252.
(** faest_param.c.in:28 *)
Definition f_faest_em_256f_keygen : positive := 253.
(** faest_param.c.in:83 *)
Definition f_faest_em_256f_sign : positive := 254.
(** faest_param.c.in:63 *)
Definition f_faest_em_256f_sign_with_randomness : positive := 255.
(** faest_param.c.in:48 *)
Definition f_faest_em_256f_validate_keypair : positive := 256.
(** faest_param.c.in:94 *)
Definition f_faest_em_256f_verify : positive := 257.
(** faest_param.c.in:103 *)
Definition f_faest_em_256s_clear_private_key : positive := 258.
(** faest_param.c.in:28 *)
Definition f_faest_em_256s_keygen : positive := 259.
(** faest_param.c.in:83 *)
Definition f_faest_em_256s_sign : positive := 260.
(** faest_param.c.in:63 *)
Definition f_faest_em_256s_sign_with_randomness : positive := 261.
(** faest_param.c.in:48 *)
Definition f_faest_em_256s_validate_keypair : positive := 262.
(** faest_param.c.in:94 *)
Definition f_faest_em_256s_verify : positive := 263.
(** compat.c:134 *)
Definition f_faest_explicit_bzero : positive := 264.
(** instances.c:126 *)
Definition f_faest_get_paramset : positive := 265.
(** faest.c:251 *)
Definition f_faest_sign : positive := 266.
(** compat.c:113 *)
Definition f_faest_timingsafe_bcmp : positive := 267.
(** faest.c:362 *)
Definition f_faest_verify : positive := 268.
(** vc.c:67 *)
Definition f_generate_seeds : positive := 269.
(** vc.c:79 *)
Definition f_getBinaryTreeNodeCount : positive := 270.
(** vc.c:84 *)
Definition f_getNodeIndex : positive := 271.
(** vc.c:42 *)
Definition f_get_parent : positive := 272.
(** faest.c:208 *)
Definition f_hash_challenge_1 : positive := 273.
(** faest.c:223 *)
Definition f_hash_challenge_2 : positive := 274.
(** faest.c:239 *)
Definition f_hash_challenge_3 : positive := 275.
(** /repo/hash_shake.h:224 *)
Definition f_hash_final : positive := 276.
(** /repo/hash_shake.h:280 *)
Definition f_hash_final_x4 : positive := 277.
(** /repo/hash_shake.h:212 *)
Definition f_hash_init : positive := 278.
(** /repo/hash_shake.h:250 *)
Definition f_hash_init_x4 : positive := 279.
(** faest.c:198 *)
Definition f_hash_mu : positive := 280.
(** /repo/hash_shake.h:228 *)
Definition f_hash_squeeze : positive := 281.
(** /repo/hash_shake.h:284 *)
Definition f_hash_squeeze_x4 : positive := 282.
(** /repo/hash_shake.h:288 *)
Definition f_hash_squeeze_x4_4 : positive := 283.
(** /repo/hash_shake.h:220 *)
Definition f_hash_update : positive := 284.
(** /repo/hash_shake.h:258 *)
Definition f_hash_update_x4 : positive := 285.
(** /repo/hash_shake.h:269 *)
Definition f_hash_update_x4_1 : positive := 286.
(** /repo/hash_shake.h:262 *)
Definition f_hash_update_x4_4 : positive := 287.
(** vc.c:26 *)
Definition f_is_left_child : positive := 288.
(** aes.c:218 *)
Definition f_load_state : positive := 289.
(** /repo/utils.h:22 *)
Definition f_masked_xor_u8_array : positive := 290.
(** libc_stub.c:3 *)
Definition f_memcmp : positive := 291.
(** aes.c:122 *)
Definition f_mix_column : positive := 292.
(** owf.c:12 *)
Definition f_owf_128 : positive := 293.
(** owf.c:19 *)
Definition f_owf_192 : positive := 294.
(** owf.c:27 *)
Definition f_owf_256 : positive := 295.
(** owf.c:35 *)
Definition f_owf_em_128 : positive := 296.
(** owf.c:45 *)
Definition f_owf_em_192 : positive := 297.
(** owf.c:55 *)
Definition f_owf_em_256 : positive := 298.
(** aes.c:297 *)
Definition f_prg : positive := 299.
(** rand_stub.c:7 *)
Definition f_rand_bytes : positive := 300.
(** aes.c:279 *)
Definition f_rijndael192_encrypt_block : positive := 301.
(** aes.c:210 *)
Definition f_rijndael192_init_round_keys : positive := 302.
(** aes.c:288 *)
Definition f_rijndael256_encrypt_block : positive := 303.
(** aes.c:214 *)
Definition f_rijndael256_init_round_keys : positive := 304.
(** aes.c:147 *)
Definition f_rot_word : positive := 305.
(** aes.c:95 *)
Definition f_shift_row : positive := 306.
(** faest.c:49 *)
Definition f_signature_a_tilde : positive := 307.
(** faest.c:22 *)
Definition f_signature_c : positive := 308.
(** faest.c:98 *)
Definition f_signature_chall_3 : positive := 309.
(** faest.c:78 *)
Definition f_signature_com : positive := 310.
(** faest.c:40 *)
Definition f_signature_d : positive := 311.
(** faest.c:104 *)
Definition f_signature_iv : positive := 312.
(** faest.c:59 *)
Definition f_signature_pdec : positive := 313.
(** faest.c:31 *)
Definition f_signature_u_tilde : positive := 314.
(** aes.c:224 *)
Definition f_store_state : positive := 315.
(** aes.c:82 *)
Definition f_sub_bytes : positive := 316.
(** aes.c:140 *)
Definition f_sub_words : positive := 317.
(** vc.c:318 *)
Definition f_vec_com_clear : positive := 318.
(** vc.c:325 *)
Definition f_vec_com_rec_clear : positive := 319.
(** vc.c:111 *)
Definition f_vector_commitment : positive := 320.
(** vc.c:166 *)
Definition f_vector_open : positive := 321.
(** vc.c:183 *)
Definition f_vector_reconstruction : positive := 322.
(** vole.c:83 *)
Definition f_vole_commit : positive := 323.
(** universal_hashing.c:145 *)
Definition f_vole_hash : positive := 324.
(** universal_hashing.c:40 *)
Definition f_vole_hash_128 : positive := 325.
(** universal_hashing.c:75 *)
Definition f_vole_hash_192 : positive := 326.
(** universal_hashing.c:110 *)
Definition f_vole_hash_256 : positive := 327.
(** vole.c:132 *)
Definition f_vole_reconstruct : positive := 328.
(** /repo/utils.h:16 *)
Definition f_xor_u8_array : positive := 329.
(** universal_hashing.c:175 *)
Definition f_zk_hash_128_finalize : positive := 330.
(** universal_hashing.c:159 *)
Definition f_zk_hash_128_init : positive := 331.
(** universal_hashing.c:170 *)
Definition f_zk_hash_128_update : positive := 332.
(** universal_hashing.c:200 *)
Definition f_zk_hash_192_finalize : positive := 333.
(** universal_hashing.c:184 *)
Definition f_zk_hash_192_init : positive := 334.
(** universal_hashing.c:195 *)
Definition f_zk_hash_192_update : positive := 335.
(** universal_hashing.c:225 *)
Definition f_zk_hash_256_finalize : positive := 336.
(** universal_hashing.c:209 *)
Definition f_zk_hash_256_init : positive := 337.
(** universal_hashing.c:220 *)
Definition f_zk_hash_256_update : positive := 338.
Definition s8 : ity := IT true 8.
Definition s16 : ity := IT true 16.
Definition s32 : ity := IT true 32.
Definition s64 : ity := IT true 64.
Definition u8 : ity := IT false 8.
Definition u16 : ity := IT false 16.
Definition u32 : ity := IT false 32.
Definition u64 : ity := IT false 64.

Notation "a ;; b" := (SSeq a b) (at level 100, b at level 200, right associativity).
