(** Generated by tools/ctc/c2v.py from the sources in /repo; see DESIGN.md. *)
From Coq Require Import ZArith List FMapPositive.
From Verif Require Import Model.CtLang Model.CtNames Model.CtFields Model.CtAes Model.CtKeccakP Model.CtKeccak Model.CtZkHash Model.CtVole Model.CtProve Model.CtFaest Model.CtApi.
Import ListNotations.
Local Open Scope Z_scope.

(** All functions. *)
Definition functions : list (positive * func) :=
  [(f_ChalDec, c_ChalDec);
   (f_ConvertToVole, c_ConvertToVole);
   (f_H0_final, c_H0_final);
   (f_H0_init, c_H0_init);
   (f_H0_update, c_H0_update);
   (f_H0_x4_final, c_H0_x4_final);
   (f_H0_x4_init, c_H0_x4_init);
   (f_H0_x4_update, c_H0_x4_update);
   (f_H1_final, c_H1_final);
   (f_H1_init, c_H1_init);
   (f_H1_update, c_H1_update);
   (f_H2_final, c_H2_final);
   (f_H2_init, c_H2_init);
   (f_H2_update, c_H2_update);
   (f_H3_final, c_H3_final);
   (f_H3_init, c_H3_init);
   (f_H3_update, c_H3_update);
   (f_KeccakF1600_FastLoop_Absorb, c_KeccakF1600_FastLoop_Absorb);
   (f_KeccakP1600_AddBytes, c_KeccakP1600_AddBytes);
   (f_KeccakP1600_AddBytesInLane, c_KeccakP1600_AddBytesInLane);
   (f_KeccakP1600_AddLanes, c_KeccakP1600_AddLanes);
   (f_KeccakP1600_ExtractBytes, c_KeccakP1600_ExtractBytes);
   (f_KeccakP1600_ExtractBytesInLane, c_KeccakP1600_ExtractBytesInLane);
   (f_KeccakP1600_ExtractLanes, c_KeccakP1600_ExtractLanes);
   (f_KeccakP1600_Initialize, c_KeccakP1600_Initialize);
   (f_KeccakP1600_Permute_24rounds, c_KeccakP1600_Permute_24rounds);
   (f_KeccakP1600times4_AddByte, c_KeccakP1600times4_AddByte);
   (f_KeccakP1600times4_AddBytes, c_KeccakP1600times4_AddBytes);
   (f_KeccakP1600times4_ExtractBytes, c_KeccakP1600times4_ExtractBytes);
   (f_KeccakP1600times4_InitializeAll, c_KeccakP1600times4_InitializeAll);
   (f_KeccakP1600times4_PermuteAll_24rounds, c_KeccakP1600times4_PermuteAll_24rounds);
   (f_KeccakP1600times4_StaticInitialize, c_KeccakP1600times4_StaticInitialize);
   (f_KeccakWidth1600_SpongeAbsorb, c_KeccakWidth1600_SpongeAbsorb);
   (f_KeccakWidth1600_SpongeAbsorbLastFewBits, c_KeccakWidth1600_SpongeAbsorbLastFewBits);
   (f_KeccakWidth1600_SpongeInitialize, c_KeccakWidth1600_SpongeInitialize);
   (f_KeccakWidth1600_SpongeSqueeze, c_KeccakWidth1600_SpongeSqueeze);
   (f_KeccakWidth1600times4_SpongeAbsorb, c_KeccakWidth1600times4_SpongeAbsorb);
   (f_KeccakWidth1600times4_SpongeAbsorbLastFewBits, c_KeccakWidth1600times4_SpongeAbsorbLastFewBits);
   (f_KeccakWidth1600times4_SpongeInitialize, c_KeccakWidth1600times4_SpongeInitialize);
   (f_KeccakWidth1600times4_SpongeSqueeze, c_KeccakWidth1600times4_SpongeSqueeze);
   (f_Keccak_HashFinal, c_Keccak_HashFinal);
   (f_Keccak_HashFinaltimes4, c_Keccak_HashFinaltimes4);
   (f_Keccak_HashInitialize, c_Keccak_HashInitialize);
   (f_Keccak_HashInitializetimes4, c_Keccak_HashInitializetimes4);
   (f_Keccak_HashSqueeze, c_Keccak_HashSqueeze);
   (f_Keccak_HashSqueezetimes4, c_Keccak_HashSqueezetimes4);
   (f_Keccak_HashUpdate, c_Keccak_HashUpdate);
   (f_Keccak_HashUpdatetimes4, c_Keccak_HashUpdatetimes4);
   (f_NumRec, c_NumRec);
   (f___rorb, c___rorb);
   (f_add_round_key, c_add_round_key);
   (f_aes128_encrypt_block, c_aes128_encrypt_block);
   (f_aes128_init_round_keys, c_aes128_init_round_keys);
   (f_aes192_encrypt_block, c_aes192_encrypt_block);
   (f_aes192_init_round_keys, c_aes192_init_round_keys);
   (f_aes256_encrypt_block, c_aes256_encrypt_block);
   (f_aes256_init_round_keys, c_aes256_init_round_keys);
   (f_aes_enc_backward_128, c_aes_enc_backward_128);
   (f_aes_enc_backward_128_1, c_aes_enc_backward_128_1);
   (f_aes_enc_backward_192, c_aes_enc_backward_192);
   (f_aes_enc_backward_192_1, c_aes_enc_backward_192_1);
   (f_aes_enc_backward_256, c_aes_enc_backward_256);
   (f_aes_enc_backward_256_1, c_aes_enc_backward_256_1);
   (f_aes_enc_constraints_Mkey_0_128, c_aes_enc_constraints_Mkey_0_128);
   (f_aes_enc_constraints_Mkey_0_192, c_aes_enc_constraints_Mkey_0_192);
   (f_aes_enc_constraints_Mkey_0_256, c_aes_enc_constraints_Mkey_0_256);
   (f_aes_enc_constraints_Mkey_1_128, c_aes_enc_constraints_Mkey_1_128);
   (f_aes_enc_constraints_Mkey_1_192, c_aes_enc_constraints_Mkey_1_192);
   (f_aes_enc_constraints_Mkey_1_256, c_aes_enc_constraints_Mkey_1_256);
   (f_aes_enc_forward_128, c_aes_enc_forward_128);
   (f_aes_enc_forward_128_1, c_aes_enc_forward_128_1);
   (f_aes_enc_forward_192, c_aes_enc_forward_192);
   (f_aes_enc_forward_192_1, c_aes_enc_forward_192_1);
   (f_aes_enc_forward_256, c_aes_enc_forward_256);
   (f_aes_enc_forward_256_1, c_aes_enc_forward_256_1);
   (f_aes_encrypt, c_aes_encrypt);
   (f_aes_extend_witness, c_aes_extend_witness);
   (f_aes_increment_iv, c_aes_increment_iv);
   (f_aes_key_schedule_backward_1, c_aes_key_schedule_backward_1);
   (f_aes_key_schedule_backward_128, c_aes_key_schedule_backward_128);
   (f_aes_key_schedule_backward_192, c_aes_key_schedule_backward_192);
   (f_aes_key_schedule_backward_256, c_aes_key_schedule_backward_256);
   (f_aes_key_schedule_constraints_Mkey_0_128, c_aes_key_schedule_constraints_Mkey_0_128);
   (f_aes_key_schedule_constraints_Mkey_0_192, c_aes_key_schedule_constraints_Mkey_0_192);
   (f_aes_key_schedule_constraints_Mkey_0_256, c_aes_key_schedule_constraints_Mkey_0_256);
   (f_aes_key_schedule_constraints_Mkey_1_128, c_aes_key_schedule_constraints_Mkey_1_128);
   (f_aes_key_schedule_constraints_Mkey_1_192, c_aes_key_schedule_constraints_Mkey_1_192);
   (f_aes_key_schedule_constraints_Mkey_1_256, c_aes_key_schedule_constraints_Mkey_1_256);
   (f_aes_key_schedule_forward_1, c_aes_key_schedule_forward_1);
   (f_aes_key_schedule_forward_128, c_aes_key_schedule_forward_128);
   (f_aes_key_schedule_forward_192, c_aes_key_schedule_forward_192);
   (f_aes_key_schedule_forward_256, c_aes_key_schedule_forward_256);
   (f_aes_prove, c_aes_prove);
   (f_aes_prove_128, c_aes_prove_128);
   (f_aes_prove_192, c_aes_prove_192);
   (f_aes_prove_256, c_aes_prove_256);
   (f_aes_verify, c_aes_verify);
   (f_aes_verify_128, c_aes_verify_128);
   (f_aes_verify_192, c_aes_verify_192);
   (f_aes_verify_256, c_aes_verify_256);
   (f_bf128_bit_to_uint64_mask, c_bf128_bit_to_uint64_mask);
   (f_bf128_byte_combine, c_bf128_byte_combine);
   (f_bf128_byte_combine_bits, c_bf128_byte_combine_bits);
   (f_bf128_dbl, c_bf128_dbl);
   (f_bf128_from_bf8, c_bf128_from_bf8);
   (f_bf128_from_bit, c_bf128_from_bit);
   (f_bf128_load, c_bf128_load);
   (f_bf128_mul, c_bf128_mul);
   (f_bf128_mul_64, c_bf128_mul_64);
   (f_bf128_one, c_bf128_one);
   (f_bf128_store, c_bf128_store);
   (f_bf128_sum_poly, c_bf128_sum_poly);
   (f_bf128_zero, c_bf128_zero);
   (f_bf192_bit_to_uint64_mask, c_bf192_bit_to_uint64_mask);
   (f_bf192_byte_combine, c_bf192_byte_combine);
   (f_bf192_byte_combine_bits, c_bf192_byte_combine_bits);
   (f_bf192_dbl, c_bf192_dbl);
   (f_bf192_from_bf8, c_bf192_from_bf8);
   (f_bf192_from_bit, c_bf192_from_bit);
   (f_bf192_load, c_bf192_load);
   (f_bf192_mul, c_bf192_mul);
   (f_bf192_mul_64, c_bf192_mul_64);
   (f_bf192_one, c_bf192_one);
   (f_bf192_shift_left_1, c_bf192_shift_left_1);
   (f_bf192_store, c_bf192_store);
   (f_bf192_sum_poly, c_bf192_sum_poly);
   (f_bf192_zero, c_bf192_zero);
   (f_bf256_bit_to_uint64_mask, c_bf256_bit_to_uint64_mask);
   (f_bf256_byte_combine, c_bf256_byte_combine);
   (f_bf256_byte_combine_bits, c_bf256_byte_combine_bits);
   (f_bf256_dbl, c_bf256_dbl);
   (f_bf256_from_bf8, c_bf256_from_bf8);
   (f_bf256_from_bit, c_bf256_from_bit);
   (f_bf256_load, c_bf256_load);
   (f_bf256_mul, c_bf256_mul);
   (f_bf256_mul_64, c_bf256_mul_64);
   (f_bf256_one, c_bf256_one);
   (f_bf256_store, c_bf256_store);
   (f_bf256_sum_poly, c_bf256_sum_poly);
   (f_bf256_zero, c_bf256_zero);
   (f_bf64_add, c_bf64_add);
   (f_bf64_load, c_bf64_load);
   (f_bf64_mul, c_bf64_mul);
   (f_bf64_one, c_bf64_one);
   (f_bf64_zero, c_bf64_zero);
   (f_bf8_inv, c_bf8_inv);
   (f_bf8_load, c_bf8_load);
   (f_bf8_mul, c_bf8_mul);
   (f_bf8_square, c_bf8_square);
   (f_bf8_store, c_bf8_store);
   (f_column_to_row_major_and_shrink_V_128, c_column_to_row_major_and_shrink_V_128);
   (f_column_to_row_major_and_shrink_V_192, c_column_to_row_major_and_shrink_V_192);
   (f_column_to_row_major_and_shrink_V_256, c_column_to_row_major_and_shrink_V_256);
   (f_compute_h1, c_compute_h1);
   (f_compute_sbox, c_compute_sbox);
   (f_contains_zero, c_contains_zero);
   (f_create_tree, c_create_tree);
   (f_dsignature_a_tilde, c_dsignature_a_tilde);
   (f_dsignature_c, c_dsignature_c);
   (f_dsignature_chall_3, c_dsignature_chall_3);
   (f_dsignature_com, c_dsignature_com);
   (f_dsignature_d, c_dsignature_d);
   (f_dsignature_iv, c_dsignature_iv);
   (f_dsignature_pdec, c_dsignature_pdec);
   (f_dsignature_u_tilde, c_dsignature_u_tilde);
   (f_em_enc_backward_128, c_em_enc_backward_128);
   (f_em_enc_backward_128_1, c_em_enc_backward_128_1);
   (f_em_enc_backward_192, c_em_enc_backward_192);
   (f_em_enc_backward_192_1, c_em_enc_backward_192_1);
   (f_em_enc_backward_256, c_em_enc_backward_256);
   (f_em_enc_backward_256_1, c_em_enc_backward_256_1);
   (f_em_enc_constraints_Mkey_0_128, c_em_enc_constraints_Mkey_0_128);
   (f_em_enc_constraints_Mkey_0_192, c_em_enc_constraints_Mkey_0_192);
   (f_em_enc_constraints_Mkey_0_256, c_em_enc_constraints_Mkey_0_256);
   (f_em_enc_constraints_Mkey_1_128, c_em_enc_constraints_Mkey_1_128);
   (f_em_enc_constraints_Mkey_1_192, c_em_enc_constraints_Mkey_1_192);
   (f_em_enc_constraints_Mkey_1_256, c_em_enc_constraints_Mkey_1_256);
   (f_em_enc_forward_128, c_em_enc_forward_128);
   (f_em_enc_forward_128_1, c_em_enc_forward_128_1);
   (f_em_enc_forward_192, c_em_enc_forward_192);
   (f_em_enc_forward_192_1, c_em_enc_forward_192_1);
   (f_em_enc_forward_256, c_em_enc_forward_256);
   (f_em_enc_forward_256_1, c_em_enc_forward_256_1);
   (f_em_prove_128, c_em_prove_128);
   (f_em_prove_192, c_em_prove_192);
   (f_em_prove_256, c_em_prove_256);
   (f_em_verify_128, c_em_verify_128);
   (f_em_verify_192, c_em_verify_192);
   (f_em_verify_256, c_em_verify_256);
   (f_expand_key, c_expand_key);
   (f_expand_seeds, c_expand_seeds);
   (f_faest_128f_clear_private_key, c_faest_128f_clear_private_key);
   (f_faest_128f_keygen, c_faest_128f_keygen);
   (f_faest_128f_sign, c_faest_128f_sign);
   (f_faest_128f_sign_with_randomness, c_faest_128f_sign_with_randomness);
   (f_faest_128f_validate_keypair, c_faest_128f_validate_keypair);
   (f_faest_128f_verify, c_faest_128f_verify);
   (f_faest_128s_clear_private_key, c_faest_128s_clear_private_key);
   (f_faest_128s_keygen, c_faest_128s_keygen);
   (f_faest_128s_sign, c_faest_128s_sign);
   (f_faest_128s_sign_with_randomness, c_faest_128s_sign_with_randomness);
   (f_faest_128s_validate_keypair, c_faest_128s_validate_keypair);
   (f_faest_128s_verify, c_faest_128s_verify);
   (f_faest_192f_clear_private_key, c_faest_192f_clear_private_key);
   (f_faest_192f_keygen, c_faest_192f_keygen);
   (f_faest_192f_sign, c_faest_192f_sign);
   (f_faest_192f_sign_with_randomness, c_faest_192f_sign_with_randomness);
   (f_faest_192f_validate_keypair, c_faest_192f_validate_keypair);
   (f_faest_192f_verify, c_faest_192f_verify);
   (f_faest_192s_clear_private_key, c_faest_192s_clear_private_key);
   (f_faest_192s_keygen, c_faest_192s_keygen);
   (f_faest_192s_sign, c_faest_192s_sign);
   (f_faest_192s_sign_with_randomness, c_faest_192s_sign_with_randomness);
   (f_faest_192s_validate_keypair, c_faest_192s_validate_keypair);
   (f_faest_192s_verify, c_faest_192s_verify);
   (f_faest_256f_clear_private_key, c_faest_256f_clear_private_key);
   (f_faest_256f_keygen, c_faest_256f_keygen);
   (f_faest_256f_sign, c_faest_256f_sign);
   (f_faest_256f_sign_with_randomness, c_faest_256f_sign_with_randomness);
   (f_faest_256f_validate_keypair, c_faest_256f_validate_keypair);
   (f_faest_256f_verify, c_faest_256f_verify);
   (f_faest_256s_clear_private_key, c_faest_256s_clear_private_key);
   (f_faest_256s_keygen, c_faest_256s_keygen);
   (f_faest_256s_sign, c_faest_256s_sign);
   (f_faest_256s_sign_with_randomness, c_faest_256s_sign_with_randomness);
   (f_faest_256s_validate_keypair, c_faest_256s_validate_keypair);
   (f_faest_256s_verify, c_faest_256s_verify);
   (f_faest_em_128f_clear_private_key, c_faest_em_128f_clear_private_key);
   (f_faest_em_128f_keygen, c_faest_em_128f_keygen);
   (f_faest_em_128f_sign, c_faest_em_128f_sign);
   (f_faest_em_128f_sign_with_randomness, c_faest_em_128f_sign_with_randomness);
   (f_faest_em_128f_validate_keypair, c_faest_em_128f_validate_keypair);
   (f_faest_em_128f_verify, c_faest_em_128f_verify);
   (f_faest_em_128s_clear_private_key, c_faest_em_128s_clear_private_key);
   (f_faest_em_128s_keygen, c_faest_em_128s_keygen);
   (f_faest_em_128s_sign, c_faest_em_128s_sign);
   (f_faest_em_128s_sign_with_randomness, c_faest_em_128s_sign_with_randomness);
   (f_faest_em_128s_validate_keypair, c_faest_em_128s_validate_keypair);
   (f_faest_em_128s_verify, c_faest_em_128s_verify);
   (f_faest_em_192f_clear_private_key, c_faest_em_192f_clear_private_key);
   (f_faest_em_192f_keygen, c_faest_em_192f_keygen);
   (f_faest_em_192f_sign, c_faest_em_192f_sign);
   (f_faest_em_192f_sign_with_randomness, c_faest_em_192f_sign_with_randomness);
   (f_faest_em_192f_validate_keypair, c_faest_em_192f_validate_keypair);
   (f_faest_em_192f_verify, c_faest_em_192f_verify);
   (f_faest_em_192s_clear_private_key, c_faest_em_192s_clear_private_key);
   (f_faest_em_192s_keygen, c_faest_em_192s_keygen);
   (f_faest_em_192s_sign, c_faest_em_192s_sign);
   (f_faest_em_192s_sign_with_randomness, c_faest_em_192s_sign_with_randomness);
   (f_faest_em_192s_validate_keypair, c_faest_em_192s_validate_keypair);
   (f_faest_em_192s_verify, c_faest_em_192s_verify);
   (f_faest_em_256f_clear_private_key, c_faest_em_256f_clear_private_key);
   (f_faest_em_256f_keygen, c_faest_em_256f_keygen);
   (f_faest_em_256f_sign, c_faest_em_256f_sign);
   (f_faest_em_256f_sign_with_randomness, c_faest_em_256f_sign_with_randomness);
   (f_faest_em_256f_validate_keypair, c_faest_em_256f_validate_keypair);
   (f_faest_em_256f_verify, c_faest_em_256f_verify);
   (f_faest_em_256s_clear_private_key, c_faest_em_256s_clear_private_key);
   (f_faest_em_256s_keygen, c_faest_em_256s_keygen);
   (f_faest_em_256s_sign, c_faest_em_256s_sign);
   (f_faest_em_256s_sign_with_randomness, c_faest_em_256s_sign_with_randomness);
   (f_faest_em_256s_validate_keypair, c_faest_em_256s_validate_keypair);
   (f_faest_em_256s_verify, c_faest_em_256s_verify);
   (f_faest_explicit_bzero, c_faest_explicit_bzero);
   (f_faest_get_paramset, c_faest_get_paramset);
   (f_faest_sign, c_faest_sign);
   (f_faest_timingsafe_bcmp, c_faest_timingsafe_bcmp);
   (f_faest_verify, c_faest_verify);
   (f_generate_seeds, c_generate_seeds);
   (f_getBinaryTreeNodeCount, c_getBinaryTreeNodeCount);
   (f_getNodeIndex, c_getNodeIndex);
   (f_get_parent, c_get_parent);
   (f_hash_challenge_1, c_hash_challenge_1);
   (f_hash_challenge_2, c_hash_challenge_2);
   (f_hash_challenge_3, c_hash_challenge_3);
   (f_hash_final, c_hash_final);
   (f_hash_final_x4, c_hash_final_x4);
   (f_hash_init, c_hash_init);
   (f_hash_init_x4, c_hash_init_x4);
   (f_hash_mu, c_hash_mu);
   (f_hash_squeeze, c_hash_squeeze);
   (f_hash_squeeze_x4, c_hash_squeeze_x4);
   (f_hash_squeeze_x4_4, c_hash_squeeze_x4_4);
   (f_hash_update, c_hash_update);
   (f_hash_update_x4, c_hash_update_x4);
   (f_hash_update_x4_1, c_hash_update_x4_1);
   (f_hash_update_x4_4, c_hash_update_x4_4);
   (f_is_left_child, c_is_left_child);
   (f_load_state, c_load_state);
   (f_masked_xor_u8_array, c_masked_xor_u8_array);
   (f_memcmp, c_memcmp);
   (f_mix_column, c_mix_column);
   (f_owf_128, c_owf_128);
   (f_owf_192, c_owf_192);
   (f_owf_256, c_owf_256);
   (f_owf_em_128, c_owf_em_128);
   (f_owf_em_192, c_owf_em_192);
   (f_owf_em_256, c_owf_em_256);
   (f_prg, c_prg);
   (f_rand_bytes, c_rand_bytes);
   (f_rijndael192_encrypt_block, c_rijndael192_encrypt_block);
   (f_rijndael192_init_round_keys, c_rijndael192_init_round_keys);
   (f_rijndael256_encrypt_block, c_rijndael256_encrypt_block);
   (f_rijndael256_init_round_keys, c_rijndael256_init_round_keys);
   (f_rot_word, c_rot_word);
   (f_shift_row, c_shift_row);
   (f_signature_a_tilde, c_signature_a_tilde);
   (f_signature_c, c_signature_c);
   (f_signature_chall_3, c_signature_chall_3);
   (f_signature_com, c_signature_com);
   (f_signature_d, c_signature_d);
   (f_signature_iv, c_signature_iv);
   (f_signature_pdec, c_signature_pdec);
   (f_signature_u_tilde, c_signature_u_tilde);
   (f_store_state, c_store_state);
   (f_sub_bytes, c_sub_bytes);
   (f_sub_words, c_sub_words);
   (f_vec_com_clear, c_vec_com_clear);
   (f_vec_com_rec_clear, c_vec_com_rec_clear);
   (f_vector_commitment, c_vector_commitment);
   (f_vector_open, c_vector_open);
   (f_vector_reconstruction, c_vector_reconstruction);
   (f_vole_commit, c_vole_commit);
   (f_vole_hash, c_vole_hash);
   (f_vole_hash_128, c_vole_hash_128);
   (f_vole_hash_192, c_vole_hash_192);
   (f_vole_hash_256, c_vole_hash_256);
   (f_vole_reconstruct, c_vole_reconstruct);
   (f_xor_u8_array, c_xor_u8_array);
   (f_zk_hash_128_finalize, c_zk_hash_128_finalize);
   (f_zk_hash_128_init, c_zk_hash_128_init);
   (f_zk_hash_128_update, c_zk_hash_128_update);
   (f_zk_hash_192_finalize, c_zk_hash_192_finalize);
   (f_zk_hash_192_init, c_zk_hash_192_init);
   (f_zk_hash_192_update, c_zk_hash_192_update);
   (f_zk_hash_256_finalize, c_zk_hash_256_finalize);
   (f_zk_hash_256_init, c_zk_hash_256_init);
   (f_zk_hash_256_update, c_zk_hash_256_update)].

Definition code : program := fold_right (fun p m => PositiveMap.add (fst p) (snd p) m) (PositiveMap.empty func) functions.

(** sha3/opt64/KeccakP-1600-opt64.c:57, KeccakF1600RoundConstants (block 1) *)
Definition g_KeccakF1600RoundConstants : list Z := [1; 0; 0; 0; 0; 0; 0; 0; 130; 128; 0; 0; 0; 0; 0; 0; 138; 128; 0; 0; 0; 0; 0; 128; 0; 128; 0; 128; 0; 0; 0; 128; 139; 128; 0; 0; 0; 0; 0; 0; 1; 0; 0; 128; 0; 0; 0; 0; 129; 128; 0; 128; 0; 0; 0; 128; 9; 128; 0; 0; 0; 0; 0; 128; 138; 0; 0; 0; 0; 0; 0; 0; 136; 0; 0; 0; 0; 0; 0; 0; 9; 128; 0; 128; 0; 0; 0; 0; 10; 0; 0; 128; 0; 0; 0; 0; 139; 128; 0; 128; 0; 0; 0; 0; 139; 0; 0; 0; 0; 0; 0; 128; 137; 128; 0; 0; 0; 0; 0; 128; 3; 128; 0; 0; 0; 0; 0; 128; 2; 128; 0; 0; 0; 0; 0; 128; 128; 0; 0; 0; 0; 0; 0; 128; 10; 128; 0; 0; 0; 0; 0; 0; 10; 0; 0; 128; 0; 0; 0; 128; 129; 128; 0; 128; 0; 0; 0; 128; 128; 128; 0; 0; 0; 0; 0; 128; 1; 0; 0; 128; 0; 0; 0; 0; 8; 128; 0; 128; 0; 0; 0; 128].
(** faest_aes.c:74, Rcon (block 2) *)
Definition g_Rcon : list Z := [1; 2; 4; 8; 16; 32; 64; 128; 27; 54; 108; 216; 171; 77; 154; 47; 94; 188; 99; 198; 151; 53; 106; 212; 179; 125; 250; 239; 197; 145].
(** fields.c:92, bf128_alpha (block 5) *)
Definition g_bf128_alpha : list Z := [13; 206; 96; 85; 172; 232; 63; 161; 28; 154; 151; 169; 85; 133; 61; 5; 225; 174; 136; 52; 202; 89; 119; 236; 132; 187; 191; 156; 67; 183; 244; 76; 168; 70; 57; 54; 174; 2; 207; 191; 198; 210; 81; 125; 79; 96; 173; 53; 73; 152; 46; 60; 72; 48; 131; 107; 254; 34; 162; 64; 70; 54; 203; 13; 180; 130; 27; 123; 39; 73; 43; 37; 165; 222; 136; 26; 225; 16; 152; 84; 34; 255; 33; 37; 239; 242; 43; 199; 117; 31; 12; 108; 104; 165; 129; 214; 188; 249; 54; 225; 148; 142; 122; 122; 224; 143; 183; 79; 26; 49; 80; 9].
(** fields.c:231, bf192_alpha (block 6) *)
Definition g_bf192_alpha : list Z := [99; 151; 56; 111; 213; 163; 200; 204; 234; 189; 110; 150; 108; 215; 101; 230; 98; 54; 107; 14; 20; 200; 11; 49; 0; 0; 0; 0; 0; 0; 0; 0; 187; 80; 244; 124; 158; 97; 51; 178; 38; 63; 99; 213; 25; 31; 246; 123; 52; 219; 145; 212; 38; 55; 147; 218; 0; 0; 0; 0; 0; 0; 0; 0; 13; 138; 57; 245; 19; 44; 109; 156; 25; 141; 50; 6; 119; 227; 50; 130; 246; 78; 117; 60; 112; 13; 59; 12; 0; 0; 0; 0; 0; 0; 0; 0; 93; 247; 43; 189; 124; 116; 32; 221; 46; 210; 88; 0; 171; 66; 85; 122; 81; 18; 188; 148; 156; 81; 236; 69; 0; 0; 0; 0; 0; 0; 0; 0; 248; 43; 206; 138; 226; 12; 213; 216; 132; 190; 222; 103; 183; 140; 22; 8; 69; 112; 166; 75; 106; 20; 125; 214; 0; 0; 0; 0; 0; 0; 0; 0; 186; 225; 213; 238; 118; 156; 15; 151; 72; 32; 215; 95; 174; 247; 234; 243; 67; 234; 108; 105; 95; 189; 166; 41; 0; 0; 0; 0; 0; 0; 0; 0; 113; 133; 6; 101; 194; 93; 148; 245; 211; 233; 6; 57; 98; 253; 25; 96; 176; 196; 135; 15; 84; 86; 124; 199; 0; 0; 0; 0; 0; 0; 0; 0].
(** fields.c:383, bf256_alpha (block 7) *)
Definition g_bf256_alpha : list Z := [231; 254; 222; 11; 66; 136; 151; 150; 103; 78; 71; 160; 56; 141; 214; 190; 106; 225; 241; 248; 69; 152; 34; 223; 51; 88; 201; 32; 207; 168; 201; 4; 193; 137; 34; 213; 42; 245; 90; 169; 47; 7; 66; 44; 141; 196; 165; 43; 234; 176; 0; 108; 55; 13; 74; 209; 241; 74; 91; 156; 105; 77; 78; 6; 29; 157; 128; 63; 131; 179; 218; 85; 87; 15; 59; 83; 30; 131; 113; 23; 16; 172; 63; 173; 63; 87; 150; 251; 141; 246; 17; 112; 219; 227; 149; 97; 213; 205; 27; 176; 25; 5; 1; 222; 246; 227; 48; 26; 145; 88; 39; 117; 63; 160; 158; 72; 182; 120; 7; 42; 56; 136; 118; 79; 214; 79; 194; 86; 182; 48; 138; 233; 41; 245; 194; 152; 130; 132; 241; 64; 212; 219; 196; 27; 129; 169; 73; 125; 148; 9; 190; 47; 252; 79; 87; 113; 109; 11; 39; 34; 11; 103; 68; 222; 185; 175; 117; 158; 188; 175; 241; 102; 198; 102; 237; 172; 126; 31; 153; 242; 63; 37; 1; 240; 243; 41; 250; 209; 47; 55; 61; 192; 139; 232; 50; 179; 152; 182; 67; 186; 13; 111; 184; 37; 214; 196; 55; 82; 69; 21; 232; 244; 42; 43; 101; 47; 184; 123; 107; 210; 9; 234; 62; 19].
(** random_oracle.c:11, domain_sep_H0 (block 8) *)
Definition g_domain_sep_H0 : list Z := [0].
(** random_oracle.c:12, domain_sep_H1 (block 9) *)
Definition g_domain_sep_H1 : list Z := [1].
(** random_oracle.c:13, domain_sep_H2 (block 10) *)
Definition g_domain_sep_H2 : list Z := [2].
(** random_oracle.c:14, domain_sep_H3 (block 11) *)
Definition g_domain_sep_H3 : list Z := [3].
(** aes.c:32, round_constants (block 12) *)
Definition g_round_constants : list Z := [1; 2; 4; 8; 16; 32; 64; 128; 27; 54; 108; 216; 171; 77; 154; 47; 94; 188; 99; 198; 151; 53; 106; 212; 179; 125; 250; 239; 197; 145].

(** The constants and their blocks. *)
Definition constants : list (positive * list Z) :=
  [(1%positive, g_KeccakF1600RoundConstants); (2%positive, g_Rcon); (5%positive, g_bf128_alpha); (6%positive, g_bf192_alpha); (7%positive, g_bf256_alpha); (8%positive, g_domain_sep_H0); (9%positive, g_domain_sep_H1); (10%positive, g_domain_sep_H2); (11%positive, g_domain_sep_H3); (12%positive, g_round_constants)].

(** The bytes of the random source (tools/ctc/inc/rand_stub.c) and how many were used. *)
Definition tape : positive := 4.
Definition tape_pos : positive := 3.
(** The blocks up to this one are the constants and the random source. *)
Definition last_global : positive := 12.
