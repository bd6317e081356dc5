(** Generated by tools/ctc/c2v.py from the sources in /repo; see DESIGN.md. *)
(** Types of the variables of each function; checked in Proof/CtTable. *)
From Coq Require Import ZArith List.
From Verif Require Import Model.CtLang Model.CtNames Proof.CtCheck.
Import ListNotations.

Definition lo := TInt false.
Definition hi := TInt true.
Definition p0 := PBytes false.
Definition p1 := PBytes true.
Definition p2 := PStruct (PCons p1 (PCons p0 (PCons p0 (PCons p0 PNil)))).
Definition p3 := PStruct (PCons p2 (PCons p0 (PCons p0 PNil))).
Definition p4 := PPtrs p0.
Definition p5 := PPtrs p1.
Definition p6 := PStruct (PCons p1 (PCons p1 (PCons p1 (PCons p1 (PCons p5 PNil))))).
Definition p7 := PStruct (PCons p5 (PCons p0 (PCons p0 PNil))).
Definition p8 := PStruct (PCons p5 (PCons p5 (PCons p5 (PCons p5 PNil)))).

Definition entries : list entry :=
  [Entry f_ChalDec (Sig [(TPtr p0); lo; lo; lo; lo; lo; (TPtr p0)] lo)
     [(1%positive, (TPtr p0)); (2%positive, lo); (3%positive, lo); (4%positive, lo); (5%positive, lo); (6%positive, lo); (7%positive, (TPtr p0)); (8%positive, lo); (9%positive, lo); (10%positive, lo); (11%positive, lo)];
   Entry f_ConvertToVole (Sig [(TPtr p0); (TPtr p1); lo; lo; lo; lo; (TPtr p1); (TPtr p1)] lo)
     [(1%positive, (TPtr p0)); (2%positive, (TPtr p1)); (3%positive, lo); (4%positive, lo); (5%positive, lo); (6%positive, lo); (7%positive, (TPtr p1)); (8%positive, (TPtr p1)); (9%positive, lo); (10%positive, lo); (11%positive, (TPtr p1)); (12%positive, (TPtr p1)); (13%positive, lo); (14%positive, lo); (15%positive, lo); (16%positive, lo)];
   Entry f_H0_final (Sig [(TPtr p3); (TPtr p1); lo; (TPtr p1); lo] lo)
     [(1%positive, (TPtr p3)); (2%positive, (TPtr p1)); (3%positive, lo); (4%positive, (TPtr p1)); (5%positive, lo)];
   Entry f_H0_init (Sig [(TPtr p3); lo] lo)
     [(1%positive, (TPtr p3)); (2%positive, lo)];
   Entry f_H0_update (Sig [(TPtr p3); (TPtr p0); lo] lo)
     [(1%positive, (TPtr p3)); (2%positive, (TPtr p0)); (3%positive, lo)];
   Entry f_H0_update (Sig [(TPtr p3); (TPtr p1); lo] lo)
     [(1%positive, (TPtr p3)); (2%positive, (TPtr p1)); (3%positive, lo)];
   Entry f_H0_x4_final (Sig [(TPtr p3); (TPtr p1); (TPtr p1); (TPtr p1); (TPtr p1); lo; (TPtr p1); (TPtr p1); (TPtr p1); (TPtr p1); lo] lo)
     [(1%positive, (TPtr p3)); (2%positive, (TPtr p1)); (3%positive, (TPtr p1)); (4%positive, (TPtr p1)); (5%positive, (TPtr p1)); (6%positive, lo); (7%positive, (TPtr p1)); (8%positive, (TPtr p1)); (9%positive, (TPtr p1)); (10%positive, (TPtr p1)); (11%positive, lo)];
   Entry f_H0_x4_init (Sig [(TPtr p3); lo] lo)
     [(1%positive, (TPtr p3)); (2%positive, lo)];
   Entry f_H0_x4_update (Sig [(TPtr p3); (TPtr p0); (TPtr p0); (TPtr p0); (TPtr p0); lo] lo)
     [(1%positive, (TPtr p3)); (2%positive, (TPtr p0)); (3%positive, (TPtr p0)); (4%positive, (TPtr p0)); (5%positive, (TPtr p0)); (6%positive, lo)];
   Entry f_H0_x4_update (Sig [(TPtr p3); (TPtr p1); (TPtr p1); (TPtr p1); (TPtr p1); lo] lo)
     [(1%positive, (TPtr p3)); (2%positive, (TPtr p1)); (3%positive, (TPtr p1)); (4%positive, (TPtr p1)); (5%positive, (TPtr p1)); (6%positive, lo)];
   Entry f_H1_final (Sig [(TPtr p3); (TPtr p1); lo] lo)
     [(1%positive, (TPtr p3)); (2%positive, (TPtr p1)); (3%positive, lo)];
   Entry f_H1_init (Sig [(TPtr p3); lo] lo)
     [(1%positive, (TPtr p3)); (2%positive, lo)];
   Entry f_H1_update (Sig [(TPtr p3); (TPtr p1); lo] lo)
     [(1%positive, (TPtr p3)); (2%positive, (TPtr p1)); (3%positive, lo)];
   Entry f_H2_final (Sig [(TPtr p3); (TPtr p1); lo] lo)
     [(1%positive, (TPtr p3)); (2%positive, (TPtr p1)); (3%positive, lo)];
   Entry f_H2_init (Sig [(TPtr p3); lo] lo)
     [(1%positive, (TPtr p3)); (2%positive, lo)];
   Entry f_H2_update (Sig [(TPtr p3); (TPtr p1); lo] lo)
     [(1%positive, (TPtr p3)); (2%positive, (TPtr p1)); (3%positive, lo)];
   Entry f_H3_final (Sig [(TPtr p3); (TPtr p1); lo; (TPtr p1)] lo)
     [(1%positive, (TPtr p3)); (2%positive, (TPtr p1)); (3%positive, lo); (4%positive, (TPtr p1))];
   Entry f_H3_init (Sig [(TPtr p3); lo] lo)
     [(1%positive, (TPtr p3)); (2%positive, lo)];
   Entry f_H3_update (Sig [(TPtr p3); (TPtr p1); lo] lo)
     [(1%positive, (TPtr p3)); (2%positive, (TPtr p1)); (3%positive, lo)];
   Entry f_KeccakF1600_FastLoop_Absorb (Sig [(TPtr p1); lo; (TPtr p0); lo] lo)
     [(1%positive, (TPtr p1)); (2%positive, lo); (3%positive, (TPtr p0)); (4%positive, lo); (5%positive, lo); (6%positive, hi); (7%positive, hi); (8%positive, hi); (9%positive, hi); (10%positive, hi); (11%positive, hi); (12%positive, hi); (13%positive, hi); (14%positive, hi); (15%positive, hi); (16%positive, hi); (17%positive, hi); (18%positive, hi); (19%positive, hi); (20%positive, hi); (21%positive, hi); (22%positive, hi); (23%positive, hi); (24%positive, hi); (25%positive, hi); (26%positive, hi); (27%positive, hi); (28%positive, hi); (29%positive, hi); (30%positive, hi); (31%positive, hi); (32%positive, hi); (33%positive, hi); (34%positive, hi); (35%positive, hi); (36%positive, hi); (37%positive, hi); (38%positive, hi); (39%positive, hi); (40%positive, hi); (41%positive, hi); (42%positive, hi); (43%positive, hi); (44%positive, hi); (45%positive, hi); (46%positive, hi); (47%positive, hi); (48%positive, hi); (49%positive, hi); (50%positive, hi); (51%positive, hi); (52%positive, hi); (53%positive, hi); (54%positive, hi); (55%positive, hi); (56%positive, hi); (57%positive, hi); (58%positive, hi); (59%positive, hi); (60%positive, hi); (61%positive, hi); (62%positive, hi); (63%positive, hi); (64%positive, hi); (65%positive, hi); (66%positive, hi); (67%positive, hi); (68%positive, hi); (69%positive, hi); (70%positive, hi); (71%positive, hi); (72%positive, hi); (73%positive, hi); (74%positive, hi); (75%positive, hi); (76%positive, hi); (77%positive, hi); (78%positive, hi); (79%positive, hi); (80%positive, hi); (81%positive, hi); (82%positive, hi); (83%positive, hi); (84%positive, hi); (85%positive, hi); (86%positive, hi); (87%positive, hi); (88%positive, hi); (89%positive, hi); (90%positive, hi); (91%positive, (TPtr p1)); (92%positive, (TPtr p0))];
   Entry f_KeccakF1600_FastLoop_Absorb (Sig [(TPtr p1); lo; (TPtr p1); lo] lo)
     [(1%positive, (TPtr p1)); (2%positive, lo); (3%positive, (TPtr p1)); (4%positive, lo); (5%positive, lo); (6%positive, hi); (7%positive, hi); (8%positive, hi); (9%positive, hi); (10%positive, hi); (11%positive, hi); (12%positive, hi); (13%positive, hi); (14%positive, hi); (15%positive, hi); (16%positive, hi); (17%positive, hi); (18%positive, hi); (19%positive, hi); (20%positive, hi); (21%positive, hi); (22%positive, hi); (23%positive, hi); (24%positive, hi); (25%positive, hi); (26%positive, hi); (27%positive, hi); (28%positive, hi); (29%positive, hi); (30%positive, hi); (31%positive, hi); (32%positive, hi); (33%positive, hi); (34%positive, hi); (35%positive, hi); (36%positive, hi); (37%positive, hi); (38%positive, hi); (39%positive, hi); (40%positive, hi); (41%positive, hi); (42%positive, hi); (43%positive, hi); (44%positive, hi); (45%positive, hi); (46%positive, hi); (47%positive, hi); (48%positive, hi); (49%positive, hi); (50%positive, hi); (51%positive, hi); (52%positive, hi); (53%positive, hi); (54%positive, hi); (55%positive, hi); (56%positive, hi); (57%positive, hi); (58%positive, hi); (59%positive, hi); (60%positive, hi); (61%positive, hi); (62%positive, hi); (63%positive, hi); (64%positive, hi); (65%positive, hi); (66%positive, hi); (67%positive, hi); (68%positive, hi); (69%positive, hi); (70%positive, hi); (71%positive, hi); (72%positive, hi); (73%positive, hi); (74%positive, hi); (75%positive, hi); (76%positive, hi); (77%positive, hi); (78%positive, hi); (79%positive, hi); (80%positive, hi); (81%positive, hi); (82%positive, hi); (83%positive, hi); (84%positive, hi); (85%positive, hi); (86%positive, hi); (87%positive, hi); (88%positive, hi); (89%positive, hi); (90%positive, hi); (91%positive, (TPtr p1)); (92%positive, (TPtr p1))];
   Entry f_KeccakP1600_AddBytes (Sig [(TPtr p1); (TPtr p0); lo; lo] lo)
     [(1%positive, (TPtr p1)); (2%positive, (TPtr p0)); (3%positive, lo); (4%positive, lo); (5%positive, lo); (6%positive, lo); (7%positive, lo); (8%positive, (TPtr p0)); (9%positive, lo)];
   Entry f_KeccakP1600_AddBytes (Sig [(TPtr p1); (TPtr p1); lo; lo] lo)
     [(1%positive, (TPtr p1)); (2%positive, (TPtr p1)); (3%positive, lo); (4%positive, lo); (5%positive, lo); (6%positive, lo); (7%positive, lo); (8%positive, (TPtr p1)); (9%positive, lo)];
   Entry f_KeccakP1600_AddBytesInLane (Sig [(TPtr p1); lo; (TPtr p0); lo; lo] lo)
     [(1%positive, (TPtr p1)); (2%positive, lo); (3%positive, (TPtr p0)); (4%positive, lo); (5%positive, lo); (6%positive, (TPtr p0)); (7%positive, (TPtr p1))];
   Entry f_KeccakP1600_AddBytesInLane (Sig [(TPtr p1); lo; (TPtr p1); lo; lo] lo)
     [(1%positive, (TPtr p1)); (2%positive, lo); (3%positive, (TPtr p1)); (4%positive, lo); (5%positive, lo); (6%positive, (TPtr p1)); (7%positive, (TPtr p1))];
   Entry f_KeccakP1600_AddLanes (Sig [(TPtr p1); (TPtr p0); lo] lo)
     [(1%positive, (TPtr p1)); (2%positive, (TPtr p0)); (3%positive, lo); (4%positive, lo); (5%positive, (TPtr p1)); (6%positive, (TPtr p1)); (7%positive, (TPtr p1)); (8%positive, (TPtr p1)); (9%positive, (TPtr p1)); (10%positive, (TPtr p1)); (11%positive, (TPtr p1)); (12%positive, (TPtr p1)); (13%positive, (TPtr p1)); (14%positive, (TPtr p1)); (15%positive, (TPtr p1)); (16%positive, (TPtr p1)); (17%positive, (TPtr p1)); (18%positive, (TPtr p1)); (19%positive, (TPtr p1))];
   Entry f_KeccakP1600_AddLanes (Sig [(TPtr p1); (TPtr p1); lo] lo)
     [(1%positive, (TPtr p1)); (2%positive, (TPtr p1)); (3%positive, lo); (4%positive, lo); (5%positive, (TPtr p1)); (6%positive, (TPtr p1)); (7%positive, (TPtr p1)); (8%positive, (TPtr p1)); (9%positive, (TPtr p1)); (10%positive, (TPtr p1)); (11%positive, (TPtr p1)); (12%positive, (TPtr p1)); (13%positive, (TPtr p1)); (14%positive, (TPtr p1)); (15%positive, (TPtr p1)); (16%positive, (TPtr p1)); (17%positive, (TPtr p1)); (18%positive, (TPtr p1)); (19%positive, (TPtr p1))];
   Entry f_KeccakP1600_ExtractBytes (Sig [(TPtr p1); (TPtr p1); lo; lo] lo)
     [(1%positive, (TPtr p1)); (2%positive, (TPtr p1)); (3%positive, lo); (4%positive, lo); (5%positive, lo); (6%positive, lo); (7%positive, lo); (8%positive, (TPtr p1)); (9%positive, lo)];
   Entry f_KeccakP1600_ExtractBytesInLane (Sig [(TPtr p1); lo; (TPtr p1); lo; lo] lo)
     [(1%positive, (TPtr p1)); (2%positive, lo); (3%positive, (TPtr p1)); (4%positive, lo); (5%positive, lo); (6%positive, hi); (7%positive, (TPtr p1))];
   Entry f_KeccakP1600_ExtractLanes (Sig [(TPtr p1); (TPtr p1); lo] lo)
     [(1%positive, (TPtr p1)); (2%positive, (TPtr p1)); (3%positive, lo)];
   Entry f_KeccakP1600_Initialize (Sig [(TPtr p1)] lo)
     [(1%positive, (TPtr p1))];
   Entry f_KeccakP1600_Permute_24rounds (Sig [(TPtr p1)] lo)
     [(1%positive, (TPtr p1)); (2%positive, hi); (3%positive, hi); (4%positive, hi); (5%positive, hi); (6%positive, hi); (7%positive, hi); (8%positive, hi); (9%positive, hi); (10%positive, hi); (11%positive, hi); (12%positive, hi); (13%positive, hi); (14%positive, hi); (15%positive, hi); (16%positive, hi); (17%positive, hi); (18%positive, hi); (19%positive, hi); (20%positive, hi); (21%positive, hi); (22%positive, hi); (23%positive, hi); (24%positive, hi); (25%positive, hi); (26%positive, hi); (27%positive, hi); (28%positive, hi); (29%positive, hi); (30%positive, hi); (31%positive, hi); (32%positive, hi); (33%positive, hi); (34%positive, hi); (35%positive, hi); (36%positive, hi); (37%positive, hi); (38%positive, hi); (39%positive, hi); (40%positive, hi); (41%positive, hi); (42%positive, hi); (43%positive, hi); (44%positive, hi); (45%positive, hi); (46%positive, hi); (47%positive, hi); (48%positive, hi); (49%positive, hi); (50%positive, hi); (51%positive, hi); (52%positive, hi); (53%positive, hi); (54%positive, hi); (55%positive, hi); (56%positive, hi); (57%positive, hi); (58%positive, hi); (59%positive, hi); (60%positive, hi); (61%positive, hi); (62%positive, hi); (63%positive, hi); (64%positive, hi); (65%positive, hi); (66%positive, hi); (67%positive, hi); (68%positive, hi); (69%positive, hi); (70%positive, hi); (71%positive, hi); (72%positive, hi); (73%positive, hi); (74%positive, hi); (75%positive, hi); (76%positive, hi); (77%positive, hi); (78%positive, hi); (79%positive, hi); (80%positive, hi); (81%positive, hi); (82%positive, hi); (83%positive, hi); (84%positive, hi); (85%positive, hi); (86%positive, hi); (87%positive, (TPtr p1))];
   Entry f_KeccakP1600times4_AddByte (Sig [(TPtr p1); lo; lo; lo] lo)
     [(1%positive, (TPtr p1)); (2%positive, lo); (3%positive, lo); (4%positive, lo); (5%positive, (TPtr p1))];
   Entry f_KeccakP1600times4_AddBytes (Sig [(TPtr p1); lo; (TPtr p0); lo; lo] lo)
     [(1%positive, (TPtr p1)); (2%positive, lo); (3%positive, (TPtr p0)); (4%positive, lo); (5%positive, lo)];
   Entry f_KeccakP1600times4_AddBytes (Sig [(TPtr p1); lo; (TPtr p1); lo; lo] lo)
     [(1%positive, (TPtr p1)); (2%positive, lo); (3%positive, (TPtr p1)); (4%positive, lo); (5%positive, lo)];
   Entry f_KeccakP1600times4_ExtractBytes (Sig [(TPtr p1); lo; (TPtr p1); lo; lo] lo)
     [(1%positive, (TPtr p1)); (2%positive, lo); (3%positive, (TPtr p1)); (4%positive, lo); (5%positive, lo)];
   Entry f_KeccakP1600times4_InitializeAll (Sig [(TPtr p1)] lo)
     [(1%positive, (TPtr p1)); (2%positive, lo)];
   Entry f_KeccakP1600times4_PermuteAll_24rounds (Sig [(TPtr p1)] lo)
     [(1%positive, (TPtr p1)); (2%positive, lo)];
   Entry f_KeccakP1600times4_StaticInitialize (Sig [] lo)
     [];
   Entry f_KeccakWidth1600_SpongeAbsorb (Sig [(TPtr p2); (TPtr p0); lo] lo)
     [(1%positive, (TPtr p2)); (2%positive, (TPtr p0)); (3%positive, lo); (4%positive, lo); (5%positive, lo); (6%positive, lo); (7%positive, (TPtr p0)); (8%positive, lo); (9%positive, lo); (10%positive, (TPtr p0))];
   Entry f_KeccakWidth1600_SpongeAbsorb (Sig [(TPtr p2); (TPtr p1); lo] lo)
     [(1%positive, (TPtr p2)); (2%positive, (TPtr p1)); (3%positive, lo); (4%positive, lo); (5%positive, lo); (6%positive, lo); (7%positive, (TPtr p1)); (8%positive, lo); (9%positive, lo); (10%positive, (TPtr p0))];
   Entry f_KeccakWidth1600_SpongeAbsorbLastFewBits (Sig [(TPtr p2); lo] lo)
     [(1%positive, (TPtr p2)); (2%positive, lo); (3%positive, lo); (4%positive, (TPtr p1)); (5%positive, (TPtr p1))];
   Entry f_KeccakWidth1600_SpongeInitialize (Sig [(TPtr p2); lo; lo] lo)
     [(1%positive, (TPtr p2)); (2%positive, lo); (3%positive, lo)];
   Entry f_KeccakWidth1600_SpongeSqueeze (Sig [(TPtr p2); (TPtr p1); lo] lo)
     [(1%positive, (TPtr p2)); (2%positive, (TPtr p1)); (3%positive, lo); (4%positive, lo); (5%positive, lo); (6%positive, lo); (7%positive, lo); (8%positive, (TPtr p1)); (9%positive, lo); (10%positive, (TPtr p0))];
   Entry f_KeccakWidth1600times4_SpongeAbsorb (Sig [(TPtr p2); (TPtr p4); lo] lo)
     [(1%positive, (TPtr p2)); (2%positive, (TPtr p4)); (3%positive, lo); (4%positive, lo); (5%positive, lo); (6%positive, lo); (7%positive, (TPtr p4)); (8%positive, lo); (9%positive, lo); (10%positive, lo); (11%positive, (TPtr p4)); (12%positive, lo); (13%positive, (TPtr p4)); (14%positive, (TPtr p0))];
   Entry f_KeccakWidth1600times4_SpongeAbsorb (Sig [(TPtr p2); (TPtr p5); lo] lo)
     [(1%positive, (TPtr p2)); (2%positive, (TPtr p5)); (3%positive, lo); (4%positive, lo); (5%positive, lo); (6%positive, lo); (7%positive, (TPtr p5)); (8%positive, lo); (9%positive, lo); (10%positive, lo); (11%positive, (TPtr p5)); (12%positive, lo); (13%positive, (TPtr p5)); (14%positive, (TPtr p0))];
   Entry f_KeccakWidth1600times4_SpongeAbsorbLastFewBits (Sig [(TPtr p2); lo] lo)
     [(1%positive, (TPtr p2)); (2%positive, lo); (3%positive, lo); (4%positive, lo); (5%positive, lo)];
   Entry f_KeccakWidth1600times4_SpongeInitialize (Sig [(TPtr p2); lo; lo] lo)
     [(1%positive, (TPtr p2)); (2%positive, lo); (3%positive, lo)];
   Entry f_KeccakWidth1600times4_SpongeSqueeze (Sig [(TPtr p2); (TPtr p5); lo] lo)
     [(1%positive, (TPtr p2)); (2%positive, (TPtr p5)); (3%positive, lo); (4%positive, lo); (5%positive, lo); (6%positive, lo); (7%positive, lo); (8%positive, (TPtr p5)); (9%positive, lo); (10%positive, lo); (11%positive, lo); (12%positive, (TPtr p5)); (13%positive, lo); (14%positive, (TPtr p5)); (15%positive, (TPtr p0))];
   Entry f_Keccak_HashFinal (Sig [(TPtr p3); (TPtr p1)] lo)
     [(1%positive, (TPtr p3)); (2%positive, (TPtr p1)); (3%positive, lo); (4%positive, lo); (5%positive, lo)];
   Entry f_Keccak_HashFinaltimes4 (Sig [(TPtr p3); (TPtr p5)] lo)
     [(1%positive, (TPtr p3)); (2%positive, (TPtr p5)); (3%positive, lo); (4%positive, lo); (5%positive, lo)];
   Entry f_Keccak_HashInitialize (Sig [(TPtr p3); lo; lo; lo; lo] lo)
     [(1%positive, (TPtr p3)); (2%positive, lo); (3%positive, lo); (4%positive, lo); (5%positive, lo); (6%positive, lo); (7%positive, lo)];
   Entry f_Keccak_HashInitializetimes4 (Sig [(TPtr p3); lo; lo; lo; lo] lo)
     [(1%positive, (TPtr p3)); (2%positive, lo); (3%positive, lo); (4%positive, lo); (5%positive, lo); (6%positive, lo); (7%positive, lo)];
   Entry f_Keccak_HashSqueeze (Sig [(TPtr p3); (TPtr p1); lo] lo)
     [(1%positive, (TPtr p3)); (2%positive, (TPtr p1)); (3%positive, lo); (4%positive, lo)];
   Entry f_Keccak_HashSqueezetimes4 (Sig [(TPtr p3); (TPtr p5); lo] lo)
     [(1%positive, (TPtr p3)); (2%positive, (TPtr p5)); (3%positive, lo); (4%positive, lo)];
   Entry f_Keccak_HashUpdate (Sig [(TPtr p3); (TPtr p0); lo] lo)
     [(1%positive, (TPtr p3)); (2%positive, (TPtr p0)); (3%positive, lo); (4%positive, lo); (5%positive, lo); (6%positive, lo); (7%positive, lo); (8%positive, lo); (9%positive, lo); (10%positive, (TPtr p0)); (11%positive, lo)];
   Entry f_Keccak_HashUpdate (Sig [(TPtr p3); (TPtr p1); lo] lo)
     [(1%positive, (TPtr p3)); (2%positive, (TPtr p1)); (3%positive, lo); (4%positive, lo); (5%positive, lo); (6%positive, lo); (7%positive, hi); (8%positive, lo); (9%positive, lo); (10%positive, (TPtr p0)); (11%positive, lo)];
   Entry f_Keccak_HashUpdatetimes4 (Sig [(TPtr p3); (TPtr p4); lo] lo)
     [(1%positive, (TPtr p3)); (2%positive, (TPtr p4)); (3%positive, lo); (4%positive, lo)];
   Entry f_Keccak_HashUpdatetimes4 (Sig [(TPtr p3); (TPtr p5); lo] lo)
     [(1%positive, (TPtr p3)); (2%positive, (TPtr p5)); (3%positive, lo); (4%positive, lo)];
   Entry f_NumRec (Sig [lo; (TPtr p0)] lo)
     [(1%positive, lo); (2%positive, (TPtr p0)); (3%positive, lo); (4%positive, lo)];
   Entry f___rorb (Sig [hi; lo] hi)
     [(1%positive, hi); (2%positive, lo)];
   Entry f_add_round_key (Sig [lo; (TPtr p1); (TPtr p1); lo] lo)
     [(1%positive, lo); (2%positive, (TPtr p1)); (3%positive, (TPtr p1)); (4%positive, lo); (5%positive, lo)];
   Entry f_aes128_encrypt_block (Sig [(TPtr p1); (TPtr p1); (TPtr p1)] hi)
     [(1%positive, (TPtr p1)); (2%positive, (TPtr p1)); (3%positive, (TPtr p1)); (4%positive, (TPtr p1)); (5%positive, hi); (6%positive, hi)];
   Entry f_aes128_init_round_keys (Sig [(TPtr p1); (TPtr p1)] hi)
     [(1%positive, (TPtr p1)); (2%positive, (TPtr p1)); (3%positive, hi)];
   Entry f_aes192_encrypt_block (Sig [(TPtr p1); (TPtr p1); (TPtr p1)] hi)
     [(1%positive, (TPtr p1)); (2%positive, (TPtr p1)); (3%positive, (TPtr p1)); (4%positive, (TPtr p1)); (5%positive, hi); (6%positive, hi)];
   Entry f_aes192_init_round_keys (Sig [(TPtr p1); (TPtr p1)] hi)
     [(1%positive, (TPtr p1)); (2%positive, (TPtr p1)); (3%positive, hi)];
   Entry f_aes256_encrypt_block (Sig [(TPtr p1); (TPtr p1); (TPtr p1)] hi)
     [(1%positive, (TPtr p1)); (2%positive, (TPtr p1)); (3%positive, (TPtr p1)); (4%positive, (TPtr p1)); (5%positive, hi); (6%positive, hi)];
   Entry f_aes256_init_round_keys (Sig [(TPtr p1); (TPtr p1)] hi)
     [(1%positive, (TPtr p1)); (2%positive, (TPtr p1)); (3%positive, hi)];
   Entry f_aes_enc_backward_128 (Sig [(TPtr p1); (TPtr p1); lo; lo; (TPtr p0); (TPtr p1); (TPtr p1)] lo)
     [(1%positive, (TPtr p1)); (2%positive, (TPtr p1)); (3%positive, lo); (4%positive, lo); (5%positive, (TPtr p0)); (6%positive, (TPtr p1)); (7%positive, (TPtr p1)); (8%positive, (TPtr p0)); (9%positive, (TPtr p0)); (10%positive, (TPtr p0)); (11%positive, (TPtr p0)); (12%positive, (TPtr p0)); (13%positive, lo); (14%positive, (TPtr p0)); (15%positive, lo); (16%positive, lo); (17%positive, lo); (18%positive, lo); (19%positive, lo); (20%positive, lo); (21%positive, (TPtr p1)); (22%positive, lo); (23%positive, lo); (24%positive, (TPtr p1)); (25%positive, hi); (26%positive, hi); (27%positive, hi); (28%positive, (TPtr p1)); (29%positive, (TPtr p1)); (30%positive, hi); (31%positive, hi); (32%positive, (TPtr p1)); (33%positive, lo); (34%positive, (TPtr p1)); (35%positive, (TPtr p1)); (36%positive, (TPtr p1)); (37%positive, (TPtr p1)); (38%positive, hi); (39%positive, hi); (40%positive, hi); (41%positive, hi); (42%positive, (TPtr p1)); (43%positive, (TPtr p1)); (44%positive, hi); (45%positive, hi); (46%positive, (TPtr p1)); (47%positive, (TPtr p1))];
   Entry f_aes_enc_backward_128_1 (Sig [(TPtr p1); (TPtr p1); (TPtr p1); (TPtr p1)] lo)
     [(1%positive, (TPtr p1)); (2%positive, (TPtr p1)); (3%positive, (TPtr p1)); (4%positive, (TPtr p1)); (5%positive, hi); (6%positive, lo); (7%positive, lo); (8%positive, lo); (9%positive, lo); (10%positive, hi); (11%positive, hi); (12%positive, hi); (13%positive, hi); (14%positive, hi); (15%positive, (TPtr p1)); (16%positive, (TPtr p1))];
   Entry f_aes_enc_backward_192 (Sig [(TPtr p1); (TPtr p1); lo; lo; (TPtr p0); (TPtr p1); (TPtr p1)] lo)
     [(1%positive, (TPtr p1)); (2%positive, (TPtr p1)); (3%positive, lo); (4%positive, lo); (5%positive, (TPtr p0)); (6%positive, (TPtr p1)); (7%positive, (TPtr p1)); (8%positive, (TPtr p0)); (9%positive, (TPtr p0)); (10%positive, (TPtr p0)); (11%positive, (TPtr p0)); (12%positive, (TPtr p0)); (13%positive, lo); (14%positive, (TPtr p0)); (15%positive, lo); (16%positive, lo); (17%positive, lo); (18%positive, lo); (19%positive, lo); (20%positive, lo); (21%positive, lo); (22%positive, lo); (23%positive, (TPtr p1)); (24%positive, lo); (25%positive, lo); (26%positive, (TPtr p1)); (27%positive, hi); (28%positive, hi); (29%positive, hi); (30%positive, hi); (31%positive, hi); (32%positive, (TPtr p1)); (33%positive, (TPtr p1)); (34%positive, hi); (35%positive, hi); (36%positive, hi); (37%positive, hi); (38%positive, (TPtr p1)); (39%positive, lo); (40%positive, (TPtr p1)); (41%positive, (TPtr p1)); (42%positive, (TPtr p1)); (43%positive, (TPtr p1)); (44%positive, hi); (45%positive, hi); (46%positive, hi); (47%positive, hi); (48%positive, hi); (49%positive, hi); (50%positive, hi); (51%positive, hi); (52%positive, (TPtr p1)); (53%positive, (TPtr p1)); (54%positive, hi); (55%positive, hi); (56%positive, hi); (57%positive, hi); (58%positive, (TPtr p1)); (59%positive, (TPtr p1))];
   Entry f_aes_enc_backward_192_1 (Sig [(TPtr p1); (TPtr p1); lo; lo; (TPtr p1); (TPtr p1)] lo)
     [(1%positive, (TPtr p1)); (2%positive, (TPtr p1)); (3%positive, lo); (4%positive, lo); (5%positive, (TPtr p1)); (6%positive, (TPtr p1)); (7%positive, hi); (8%positive, lo); (9%positive, lo); (10%positive, lo); (11%positive, lo); (12%positive, hi); (13%positive, hi); (14%positive, hi); (15%positive, hi); (16%positive, hi); (17%positive, (TPtr p1)); (18%positive, (TPtr p1))];
   Entry f_aes_enc_backward_256 (Sig [(TPtr p1); (TPtr p1); lo; lo; (TPtr p0); (TPtr p1); (TPtr p1)] lo)
     [(1%positive, (TPtr p1)); (2%positive, (TPtr p1)); (3%positive, lo); (4%positive, lo); (5%positive, (TPtr p0)); (6%positive, (TPtr p1)); (7%positive, (TPtr p1)); (8%positive, (TPtr p0)); (9%positive, (TPtr p0)); (10%positive, (TPtr p0)); (11%positive, (TPtr p0)); (12%positive, (TPtr p0)); (13%positive, lo); (14%positive, (TPtr p0)); (15%positive, lo); (16%positive, lo); (17%positive, lo); (18%positive, lo); (19%positive, lo); (20%positive, lo); (21%positive, lo); (22%positive, lo); (23%positive, (TPtr p1)); (24%positive, lo); (25%positive, lo); (26%positive, (TPtr p1)); (27%positive, hi); (28%positive, hi); (29%positive, hi); (30%positive, hi); (31%positive, hi); (32%positive, (TPtr p1)); (33%positive, (TPtr p1)); (34%positive, hi); (35%positive, hi); (36%positive, hi); (37%positive, hi); (38%positive, (TPtr p1)); (39%positive, lo); (40%positive, (TPtr p1)); (41%positive, (TPtr p1)); (42%positive, (TPtr p1)); (43%positive, (TPtr p1)); (44%positive, hi); (45%positive, hi); (46%positive, hi); (47%positive, hi); (48%positive, hi); (49%positive, hi); (50%positive, hi); (51%positive, hi); (52%positive, (TPtr p1)); (53%positive, (TPtr p1)); (54%positive, hi); (55%positive, hi); (56%positive, hi); (57%positive, hi); (58%positive, (TPtr p1)); (59%positive, (TPtr p1))];
   Entry f_aes_enc_backward_256_1 (Sig [(TPtr p1); (TPtr p1); lo; lo; (TPtr p1); (TPtr p1)] lo)
     [(1%positive, (TPtr p1)); (2%positive, (TPtr p1)); (3%positive, lo); (4%positive, lo); (5%positive, (TPtr p1)); (6%positive, (TPtr p1)); (7%positive, hi); (8%positive, lo); (9%positive, lo); (10%positive, lo); (11%positive, lo); (12%positive, hi); (13%positive, hi); (14%positive, hi); (15%positive, hi); (16%positive, hi); (17%positive, (TPtr p1)); (18%positive, (TPtr p1))];
   Entry f_aes_enc_constraints_Mkey_0_128 (Sig [(TPtr p1); (TPtr p1); (TPtr p1); (TPtr p1); (TPtr p1); (TPtr p1); (TPtr p6); (TPtr p6)] lo)
     [(1%positive, (TPtr p1)); (2%positive, (TPtr p1)); (3%positive, (TPtr p1)); (4%positive, (TPtr p1)); (5%positive, (TPtr p1)); (6%positive, (TPtr p1)); (7%positive, (TPtr p6)); (8%positive, (TPtr p6)); (9%positive, (TPtr p1)); (10%positive, (TPtr p1)); (11%positive, (TPtr p1)); (12%positive, (TPtr p1)); (13%positive, lo); (14%positive, (TPtr p1)); (15%positive, (TPtr p1)); (16%positive, (TPtr p1)); (17%positive, (TPtr p1)); (18%positive, hi); (19%positive, hi); (20%positive, (TPtr p1)); (21%positive, (TPtr p1)); (22%positive, (TPtr p1)); (23%positive, hi); (24%positive, hi); (25%positive, (TPtr p1)); (26%positive, (TPtr p0)); (27%positive, (TPtr p1)); (28%positive, hi); (29%positive, hi)];
   Entry f_aes_enc_constraints_Mkey_0_192 (Sig [(TPtr p1); (TPtr p1); (TPtr p1); (TPtr p1); (TPtr p1); (TPtr p1); (TPtr p6); (TPtr p6)] lo)
     [(1%positive, (TPtr p1)); (2%positive, (TPtr p1)); (3%positive, (TPtr p1)); (4%positive, (TPtr p1)); (5%positive, (TPtr p1)); (6%positive, (TPtr p1)); (7%positive, (TPtr p6)); (8%positive, (TPtr p6)); (9%positive, (TPtr p1)); (10%positive, (TPtr p1)); (11%positive, (TPtr p1)); (12%positive, (TPtr p1)); (13%positive, lo); (14%positive, (TPtr p1)); (15%positive, (TPtr p1)); (16%positive, (TPtr p1)); (17%positive, (TPtr p1)); (18%positive, hi); (19%positive, hi); (20%positive, hi); (21%positive, hi); (22%positive, (TPtr p1)); (23%positive, (TPtr p1)); (24%positive, (TPtr p1)); (25%positive, hi); (26%positive, hi); (27%positive, hi); (28%positive, hi); (29%positive, (TPtr p1)); (30%positive, (TPtr p0)); (31%positive, (TPtr p1)); (32%positive, hi); (33%positive, hi); (34%positive, hi); (35%positive, hi)];
   Entry f_aes_enc_constraints_Mkey_0_256 (Sig [(TPtr p1); (TPtr p1); (TPtr p1); (TPtr p1); (TPtr p1); (TPtr p1); (TPtr p6); (TPtr p6)] lo)
     [(1%positive, (TPtr p1)); (2%positive, (TPtr p1)); (3%positive, (TPtr p1)); (4%positive, (TPtr p1)); (5%positive, (TPtr p1)); (6%positive, (TPtr p1)); (7%positive, (TPtr p6)); (8%positive, (TPtr p6)); (9%positive, (TPtr p1)); (10%positive, (TPtr p1)); (11%positive, (TPtr p1)); (12%positive, (TPtr p1)); (13%positive, lo); (14%positive, (TPtr p1)); (15%positive, (TPtr p1)); (16%positive, (TPtr p1)); (17%positive, (TPtr p1)); (18%positive, hi); (19%positive, hi); (20%positive, hi); (21%positive, hi); (22%positive, (TPtr p1)); (23%positive, (TPtr p1)); (24%positive, (TPtr p1)); (25%positive, hi); (26%positive, hi); (27%positive, hi); (28%positive, hi); (29%positive, (TPtr p1)); (30%positive, (TPtr p0)); (31%positive, (TPtr p1)); (32%positive, hi); (33%positive, hi); (34%positive, hi); (35%positive, hi)];
   Entry f_aes_enc_forward_128 (Sig [(TPtr p1); (TPtr p1); (TPtr p1); lo; lo; (TPtr p0); (TPtr p1)] lo)
     [(1%positive, (TPtr p1)); (2%positive, (TPtr p1)); (3%positive, (TPtr p1)); (4%positive, lo); (5%positive, lo); (6%positive, (TPtr p0)); (7%positive, (TPtr p1)); (8%positive, (TPtr p0)); (9%positive, (TPtr p0)); (10%positive, (TPtr p0)); (11%positive, (TPtr p0)); (12%positive, (TPtr p0)); (13%positive, lo); (14%positive, (TPtr p0)); (15%positive, lo); (16%positive, lo); (17%positive, lo); (18%positive, (TPtr p1)); (19%positive, lo); (20%positive, (TPtr p1)); (21%positive, hi); (22%positive, hi); (23%positive, hi); (24%positive, (TPtr p1)); (25%positive, (TPtr p1)); (26%positive, (TPtr p1)); (27%positive, hi); (28%positive, hi); (29%positive, (TPtr p0)); (30%positive, (TPtr p0)); (31%positive, lo); (32%positive, lo); (33%positive, lo); (34%positive, lo); (35%positive, lo); (36%positive, (TPtr p1)); (37%positive, (TPtr p1)); (38%positive, lo); (39%positive, (TPtr p1)); (40%positive, (TPtr p1)); (41%positive, (TPtr p1)); (42%positive, (TPtr p1)); (43%positive, (TPtr p1)); (44%positive, (TPtr p1)); (45%positive, hi); (46%positive, hi); (47%positive, (TPtr p1)); (48%positive, (TPtr p1)); (49%positive, (TPtr p1)); (50%positive, hi); (51%positive, hi); (52%positive, (TPtr p1)); (53%positive, (TPtr p1)); (54%positive, (TPtr p1)); (55%positive, hi); (56%positive, hi); (57%positive, (TPtr p1)); (58%positive, (TPtr p1)); (59%positive, (TPtr p1)); (60%positive, hi); (61%positive, hi); (62%positive, (TPtr p1)); (63%positive, (TPtr p1)); (64%positive, hi); (65%positive, hi); (66%positive, (TPtr p1)); (67%positive, (TPtr p1)); (68%positive, (TPtr p1)); (69%positive, hi); (70%positive, hi); (71%positive, (TPtr p1)); (72%positive, (TPtr p1)); (73%positive, (TPtr p1)); (74%positive, hi); (75%positive, hi); (76%positive, (TPtr p1)); (77%positive, (TPtr p1)); (78%positive, (TPtr p1)); (79%positive, hi); (80%positive, hi); (81%positive, (TPtr p1)); (82%positive, (TPtr p1)); (83%positive, hi); (84%positive, hi); (85%positive, (TPtr p1)); (86%positive, (TPtr p1)); (87%positive, (TPtr p1)); (88%positive, hi); (89%positive, hi); (90%positive, (TPtr p1)); (91%positive, (TPtr p1)); (92%positive, (TPtr p1)); (93%positive, hi); (94%positive, hi); (95%positive, (TPtr p1)); (96%positive, (TPtr p1)); (97%positive, (TPtr p1)); (98%positive, hi); (99%positive, hi); (100%positive, (TPtr p1)); (101%positive, (TPtr p1)); (102%positive, (TPtr p1)); (103%positive, hi); (104%positive, hi); (105%positive, (TPtr p1)); (106%positive, (TPtr p1)); (107%positive, (TPtr p1)); (108%positive, hi); (109%positive, hi); (110%positive, (TPtr p1)); (111%positive, (TPtr p1)); (112%positive, (TPtr p1)); (113%positive, hi); (114%positive, hi); (115%positive, (TPtr p1)); (116%positive, (TPtr p1)); (117%positive, (TPtr p1)); (118%positive, hi); (119%positive, hi)];
   Entry f_aes_enc_forward_128_1 (Sig [(TPtr p1); (TPtr p1); (TPtr p1); (TPtr p1)] lo)
     [(1%positive, (TPtr p1)); (2%positive, (TPtr p1)); (3%positive, (TPtr p1)); (4%positive, (TPtr p1)); (5%positive, lo); (6%positive, hi); (7%positive, (TPtr p1)); (8%positive, (TPtr p1)); (9%positive, (TPtr p1)); (10%positive, hi); (11%positive, hi); (12%positive, (TPtr p0)); (13%positive, (TPtr p0)); (14%positive, lo); (15%positive, lo); (16%positive, lo); (17%positive, lo); (18%positive, lo); (19%positive, (TPtr p1)); (20%positive, (TPtr p1)); (21%positive, lo); (22%positive, (TPtr p1)); (23%positive, (TPtr p1)); (24%positive, (TPtr p1)); (25%positive, (TPtr p1)); (26%positive, (TPtr p1)); (27%positive, (TPtr p1)); (28%positive, hi); (29%positive, hi); (30%positive, (TPtr p1)); (31%positive, (TPtr p1)); (32%positive, (TPtr p1)); (33%positive, hi); (34%positive, hi); (35%positive, (TPtr p1)); (36%positive, (TPtr p1)); (37%positive, (TPtr p1)); (38%positive, hi); (39%positive, hi); (40%positive, (TPtr p1)); (41%positive, (TPtr p1)); (42%positive, (TPtr p1)); (43%positive, hi); (44%positive, hi); (45%positive, (TPtr p1)); (46%positive, (TPtr p1)); (47%positive, hi); (48%positive, hi); (49%positive, (TPtr p1)); (50%positive, (TPtr p1)); (51%positive, (TPtr p1)); (52%positive, hi); (53%positive, hi); (54%positive, (TPtr p1)); (55%positive, (TPtr p1)); (56%positive, (TPtr p1)); (57%positive, hi); (58%positive, hi); (59%positive, (TPtr p1)); (60%positive, (TPtr p1)); (61%positive, (TPtr p1)); (62%positive, hi); (63%positive, hi); (64%positive, (TPtr p1)); (65%positive, (TPtr p1)); (66%positive, hi); (67%positive, hi); (68%positive, (TPtr p1)); (69%positive, (TPtr p1)); (70%positive, (TPtr p1)); (71%positive, hi); (72%positive, hi); (73%positive, (TPtr p1)); (74%positive, (TPtr p1)); (75%positive, (TPtr p1)); (76%positive, hi); (77%positive, hi); (78%positive, (TPtr p1)); (79%positive, (TPtr p1)); (80%positive, (TPtr p1)); (81%positive, hi); (82%positive, hi); (83%positive, (TPtr p1)); (84%positive, (TPtr p1)); (85%positive, (TPtr p1)); (86%positive, hi); (87%positive, hi); (88%positive, (TPtr p1)); (89%positive, (TPtr p1)); (90%positive, (TPtr p1)); (91%positive, hi); (92%positive, hi); (93%positive, (TPtr p1)); (94%positive, (TPtr p1)); (95%positive, (TPtr p1)); (96%positive, hi); (97%positive, hi); (98%positive, (TPtr p1)); (99%positive, (TPtr p1)); (100%positive, (TPtr p1)); (101%positive, hi); (102%positive, hi)];
   Entry f_aes_enc_forward_192 (Sig [(TPtr p1); (TPtr p1); (TPtr p1); lo; lo; (TPtr p0); (TPtr p1)] lo)
     [(1%positive, (TPtr p1)); (2%positive, (TPtr p1)); (3%positive, (TPtr p1)); (4%positive, lo); (5%positive, lo); (6%positive, (TPtr p0)); (7%positive, (TPtr p1)); (8%positive, (TPtr p0)); (9%positive, (TPtr p0)); (10%positive, (TPtr p0)); (11%positive, (TPtr p0)); (12%positive, (TPtr p0)); (13%positive, lo); (14%positive, (TPtr p0)); (15%positive, lo); (16%positive, lo); (17%positive, lo); (18%positive, lo); (19%positive, lo); (20%positive, (TPtr p1)); (21%positive, lo); (22%positive, (TPtr p1)); (23%positive, hi); (24%positive, hi); (25%positive, hi); (26%positive, hi); (27%positive, hi); (28%positive, (TPtr p1)); (29%positive, (TPtr p1)); (30%positive, (TPtr p1)); (31%positive, hi); (32%positive, hi); (33%positive, hi); (34%positive, hi); (35%positive, (TPtr p0)); (36%positive, (TPtr p0)); (37%positive, lo); (38%positive, lo); (39%positive, lo); (40%positive, lo); (41%positive, lo); (42%positive, (TPtr p1)); (43%positive, (TPtr p1)); (44%positive, lo); (45%positive, (TPtr p1)); (46%positive, (TPtr p1)); (47%positive, (TPtr p1)); (48%positive, (TPtr p1)); (49%positive, (TPtr p1)); (50%positive, (TPtr p1)); (51%positive, hi); (52%positive, hi); (53%positive, hi); (54%positive, hi); (55%positive, (TPtr p1)); (56%positive, (TPtr p1)); (57%positive, (TPtr p1)); (58%positive, hi); (59%positive, hi); (60%positive, hi); (61%positive, hi); (62%positive, (TPtr p1)); (63%positive, (TPtr p1)); (64%positive, (TPtr p1)); (65%positive, hi); (66%positive, hi); (67%positive, hi); (68%positive, hi); (69%positive, (TPtr p1)); (70%positive, (TPtr p1)); (71%positive, (TPtr p1)); (72%positive, hi); (73%positive, hi); (74%positive, hi); (75%positive, hi); (76%positive, (TPtr p1)); (77%positive, (TPtr p1)); (78%positive, hi); (79%positive, hi); (80%positive, hi); (81%positive, hi); (82%positive, (TPtr p1)); (83%positive, (TPtr p1)); (84%positive, (TPtr p1)); (85%positive, hi); (86%positive, hi); (87%positive, hi); (88%positive, hi); (89%positive, (TPtr p1)); (90%positive, (TPtr p1)); (91%positive, (TPtr p1)); (92%positive, hi); (93%positive, hi); (94%positive, hi); (95%positive, hi); (96%positive, (TPtr p1)); (97%positive, (TPtr p1)); (98%positive, (TPtr p1)); (99%positive, hi); (100%positive, hi); (101%positive, hi); (102%positive, hi); (103%positive, (TPtr p1)); (104%positive, (TPtr p1)); (105%positive, hi); (106%positive, hi); (107%positive, hi); (108%positive, hi); (109%positive, (TPtr p1)); (110%positive, (TPtr p1)); (111%positive, (TPtr p1)); (112%positive, hi); (113%positive, hi); (114%positive, hi); (115%positive, hi); (116%positive, (TPtr p1)); (117%positive, (TPtr p1)); (118%positive, (TPtr p1)); (119%positive, hi); (120%positive, hi); (121%positive, hi); (122%positive, hi); (123%positive, (TPtr p1)); (124%positive, (TPtr p1)); (125%positive, (TPtr p1)); (126%positive, hi); (127%positive, hi); (128%positive, hi); (129%positive, hi); (130%positive, (TPtr p1)); (131%positive, (TPtr p1)); (132%positive, (TPtr p1)); (133%positive, hi); (134%positive, hi); (135%positive, hi); (136%positive, hi); (137%positive, (TPtr p1)); (138%positive, (TPtr p1)); (139%positive, (TPtr p1)); (140%positive, hi); (141%positive, hi); (142%positive, hi); (143%positive, hi); (144%positive, (TPtr p1)); (145%positive, (TPtr p1)); (146%positive, (TPtr p1)); (147%positive, hi); (148%positive, hi); (149%positive, hi); (150%positive, hi); (151%positive, (TPtr p1)); (152%positive, (TPtr p1)); (153%positive, (TPtr p1)); (154%positive, hi); (155%positive, hi); (156%positive, hi); (157%positive, hi)];
   Entry f_aes_enc_forward_192_1 (Sig [(TPtr p1); (TPtr p1); (TPtr p1); lo; lo; (TPtr p1)] lo)
     [(1%positive, (TPtr p1)); (2%positive, (TPtr p1)); (3%positive, (TPtr p1)); (4%positive, lo); (5%positive, lo); (6%positive, (TPtr p1)); (7%positive, lo); (8%positive, hi); (9%positive, (TPtr p1)); (10%positive, (TPtr p1)); (11%positive, (TPtr p1)); (12%positive, hi); (13%positive, hi); (14%positive, hi); (15%positive, hi); (16%positive, (TPtr p0)); (17%positive, (TPtr p0)); (18%positive, lo); (19%positive, lo); (20%positive, lo); (21%positive, lo); (22%positive, lo); (23%positive, (TPtr p1)); (24%positive, (TPtr p1)); (25%positive, lo); (26%positive, (TPtr p1)); (27%positive, (TPtr p1)); (28%positive, (TPtr p1)); (29%positive, (TPtr p1)); (30%positive, (TPtr p1)); (31%positive, (TPtr p1)); (32%positive, hi); (33%positive, hi); (34%positive, hi); (35%positive, hi); (36%positive, (TPtr p1)); (37%positive, (TPtr p1)); (38%positive, (TPtr p1)); (39%positive, hi); (40%positive, hi); (41%positive, hi); (42%positive, hi); (43%positive, (TPtr p1)); (44%positive, (TPtr p1)); (45%positive, (TPtr p1)); (46%positive, hi); (47%positive, hi); (48%positive, hi); (49%positive, hi); (50%positive, (TPtr p1)); (51%positive, (TPtr p1)); (52%positive, (TPtr p1)); (53%positive, hi); (54%positive, hi); (55%positive, hi); (56%positive, hi); (57%positive, (TPtr p1)); (58%positive, (TPtr p1)); (59%positive, hi); (60%positive, hi); (61%positive, hi); (62%positive, hi); (63%positive, (TPtr p1)); (64%positive, (TPtr p1)); (65%positive, (TPtr p1)); (66%positive, hi); (67%positive, hi); (68%positive, hi); (69%positive, hi); (70%positive, (TPtr p1)); (71%positive, (TPtr p1)); (72%positive, (TPtr p1)); (73%positive, hi); (74%positive, hi); (75%positive, hi); (76%positive, hi); (77%positive, (TPtr p1)); (78%positive, (TPtr p1)); (79%positive, (TPtr p1)); (80%positive, hi); (81%positive, hi); (82%positive, hi); (83%positive, hi); (84%positive, (TPtr p1)); (85%positive, (TPtr p1)); (86%positive, hi); (87%positive, hi); (88%positive, hi); (89%positive, hi); (90%positive, (TPtr p1)); (91%positive, (TPtr p1)); (92%positive, (TPtr p1)); (93%positive, hi); (94%positive, hi); (95%positive, hi); (96%positive, hi); (97%positive, (TPtr p1)); (98%positive, (TPtr p1)); (99%positive, (TPtr p1)); (100%positive, hi); (101%positive, hi); (102%positive, hi); (103%positive, hi); (104%positive, (TPtr p1)); (105%positive, (TPtr p1)); (106%positive, (TPtr p1)); (107%positive, hi); (108%positive, hi); (109%positive, hi); (110%positive, hi); (111%positive, (TPtr p1)); (112%positive, (TPtr p1)); (113%positive, (TPtr p1)); (114%positive, hi); (115%positive, hi); (116%positive, hi); (117%positive, hi); (118%positive, (TPtr p1)); (119%positive, (TPtr p1)); (120%positive, (TPtr p1)); (121%positive, hi); (122%positive, hi); (123%positive, hi); (124%positive, hi); (125%positive, (TPtr p1)); (126%positive, (TPtr p1)); (127%positive, (TPtr p1)); (128%positive, hi); (129%positive, hi); (130%positive, hi); (131%positive, hi); (132%positive, (TPtr p1)); (133%positive, (TPtr p1)); (134%positive, (TPtr p1)); (135%positive, hi); (136%positive, hi); (137%positive, hi); (138%positive, hi)];
   Entry f_aes_enc_forward_256 (Sig [(TPtr p1); (TPtr p1); (TPtr p1); lo; lo; (TPtr p0); (TPtr p1)] lo)
     [(1%positive, (TPtr p1)); (2%positive, (TPtr p1)); (3%positive, (TPtr p1)); (4%positive, lo); (5%positive, lo); (6%positive, (TPtr p0)); (7%positive, (TPtr p1)); (8%positive, (TPtr p0)); (9%positive, (TPtr p0)); (10%positive, (TPtr p0)); (11%positive, (TPtr p0)); (12%positive, (TPtr p0)); (13%positive, lo); (14%positive, (TPtr p0)); (15%positive, lo); (16%positive, lo); (17%positive, lo); (18%positive, lo); (19%positive, lo); (20%positive, (TPtr p1)); (21%positive, lo); (22%positive, (TPtr p1)); (23%positive, hi); (24%positive, hi); (25%positive, hi); (26%positive, hi); (27%positive, hi); (28%positive, (TPtr p1)); (29%positive, (TPtr p1)); (30%positive, (TPtr p1)); (31%positive, hi); (32%positive, hi); (33%positive, hi); (34%positive, hi); (35%positive, (TPtr p0)); (36%positive, (TPtr p0)); (37%positive, lo); (38%positive, lo); (39%positive, lo); (40%positive, lo); (41%positive, lo); (42%positive, (TPtr p1)); (43%positive, (TPtr p1)); (44%positive, lo); (45%positive, (TPtr p1)); (46%positive, (TPtr p1)); (47%positive, (TPtr p1)); (48%positive, (TPtr p1)); (49%positive, (TPtr p1)); (50%positive, (TPtr p1)); (51%positive, hi); (52%positive, hi); (53%positive, hi); (54%positive, hi); (55%positive, (TPtr p1)); (56%positive, (TPtr p1)); (57%positive, (TPtr p1)); (58%positive, hi); (59%positive, hi); (60%positive, hi); (61%positive, hi); (62%positive, (TPtr p1)); (63%positive, (TPtr p1)); (64%positive, (TPtr p1)); (65%positive, hi); (66%positive, hi); (67%positive, hi); (68%positive, hi); (69%positive, (TPtr p1)); (70%positive, (TPtr p1)); (71%positive, (TPtr p1)); (72%positive, hi); (73%positive, hi); (74%positive, hi); (75%positive, hi); (76%positive, (TPtr p1)); (77%positive, (TPtr p1)); (78%positive, hi); (79%positive, hi); (80%positive, hi); (81%positive, hi); (82%positive, (TPtr p1)); (83%positive, (TPtr p1)); (84%positive, (TPtr p1)); (85%positive, hi); (86%positive, hi); (87%positive, hi); (88%positive, hi); (89%positive, (TPtr p1)); (90%positive, (TPtr p1)); (91%positive, (TPtr p1)); (92%positive, hi); (93%positive, hi); (94%positive, hi); (95%positive, hi); (96%positive, (TPtr p1)); (97%positive, (TPtr p1)); (98%positive, (TPtr p1)); (99%positive, hi); (100%positive, hi); (101%positive, hi); (102%positive, hi); (103%positive, (TPtr p1)); (104%positive, (TPtr p1)); (105%positive, hi); (106%positive, hi); (107%positive, hi); (108%positive, hi); (109%positive, (TPtr p1)); (110%positive, (TPtr p1)); (111%positive, (TPtr p1)); (112%positive, hi); (113%positive, hi); (114%positive, hi); (115%positive, hi); (116%positive, (TPtr p1)); (117%positive, (TPtr p1)); (118%positive, (TPtr p1)); (119%positive, hi); (120%positive, hi); (121%positive, hi); (122%positive, hi); (123%positive, (TPtr p1)); (124%positive, (TPtr p1)); (125%positive, (TPtr p1)); (126%positive, hi); (127%positive, hi); (128%positive, hi); (129%positive, hi); (130%positive, (TPtr p1)); (131%positive, (TPtr p1)); (132%positive, (TPtr p1)); (133%positive, hi); (134%positive, hi); (135%positive, hi); (136%positive, hi); (137%positive, (TPtr p1)); (138%positive, (TPtr p1)); (139%positive, (TPtr p1)); (140%positive, hi); (141%positive, hi); (142%positive, hi); (143%positive, hi); (144%positive, (TPtr p1)); (145%positive, (TPtr p1)); (146%positive, (TPtr p1)); (147%positive, hi); (148%positive, hi); (149%positive, hi); (150%positive, hi); (151%positive, (TPtr p1)); (152%positive, (TPtr p1)); (153%positive, (TPtr p1)); (154%positive, hi); (155%positive, hi); (156%positive, hi); (157%positive, hi)];
   Entry f_aes_enc_forward_256_1 (Sig [(TPtr p1); (TPtr p1); (TPtr p1); lo; lo; (TPtr p1)] lo)
     [(1%positive, (TPtr p1)); (2%positive, (TPtr p1)); (3%positive, (TPtr p1)); (4%positive, lo); (5%positive, lo); (6%positive, (TPtr p1)); (7%positive, lo); (8%positive, hi); (9%positive, (TPtr p1)); (10%positive, (TPtr p1)); (11%positive, (TPtr p1)); (12%positive, hi); (13%positive, hi); (14%positive, hi); (15%positive, hi); (16%positive, (TPtr p0)); (17%positive, (TPtr p0)); (18%positive, lo); (19%positive, lo); (20%positive, lo); (21%positive, lo); (22%positive, lo); (23%positive, (TPtr p1)); (24%positive, (TPtr p1)); (25%positive, lo); (26%positive, (TPtr p1)); (27%positive, (TPtr p1)); (28%positive, (TPtr p1)); (29%positive, (TPtr p1)); (30%positive, (TPtr p1)); (31%positive, (TPtr p1)); (32%positive, hi); (33%positive, hi); (34%positive, hi); (35%positive, hi); (36%positive, (TPtr p1)); (37%positive, (TPtr p1)); (38%positive, (TPtr p1)); (39%positive, hi); (40%positive, hi); (41%positive, hi); (42%positive, hi); (43%positive, (TPtr p1)); (44%positive, (TPtr p1)); (45%positive, (TPtr p1)); (46%positive, hi); (47%positive, hi); (48%positive, hi); (49%positive, hi); (50%positive, (TPtr p1)); (51%positive, (TPtr p1)); (52%positive, (TPtr p1)); (53%positive, hi); (54%positive, hi); (55%positive, hi); (56%positive, hi); (57%positive, (TPtr p1)); (58%positive, (TPtr p1)); (59%positive, hi); (60%positive, hi); (61%positive, hi); (62%positive, hi); (63%positive, (TPtr p1)); (64%positive, (TPtr p1)); (65%positive, (TPtr p1)); (66%positive, hi); (67%positive, hi); (68%positive, hi); (69%positive, hi); (70%positive, (TPtr p1)); (71%positive, (TPtr p1)); (72%positive, (TPtr p1)); (73%positive, hi); (74%positive, hi); (75%positive, hi); (76%positive, hi); (77%positive, (TPtr p1)); (78%positive, (TPtr p1)); (79%positive, (TPtr p1)); (80%positive, hi); (81%positive, hi); (82%positive, hi); (83%positive, hi); (84%positive, (TPtr p1)); (85%positive, (TPtr p1)); (86%positive, hi); (87%positive, hi); (88%positive, hi); (89%positive, hi); (90%positive, (TPtr p1)); (91%positive, (TPtr p1)); (92%positive, (TPtr p1)); (93%positive, hi); (94%positive, hi); (95%positive, hi); (96%positive, hi); (97%positive, (TPtr p1)); (98%positive, (TPtr p1)); (99%positive, (TPtr p1)); (100%positive, hi); (101%positive, hi); (102%positive, hi); (103%positive, hi); (104%positive, (TPtr p1)); (105%positive, (TPtr p1)); (106%positive, (TPtr p1)); (107%positive, hi); (108%positive, hi); (109%positive, hi); (110%positive, hi); (111%positive, (TPtr p1)); (112%positive, (TPtr p1)); (113%positive, (TPtr p1)); (114%positive, hi); (115%positive, hi); (116%positive, hi); (117%positive, hi); (118%positive, (TPtr p1)); (119%positive, (TPtr p1)); (120%positive, (TPtr p1)); (121%positive, hi); (122%positive, hi); (123%positive, hi); (124%positive, hi); (125%positive, (TPtr p1)); (126%positive, (TPtr p1)); (127%positive, (TPtr p1)); (128%positive, hi); (129%positive, hi); (130%positive, hi); (131%positive, hi); (132%positive, (TPtr p1)); (133%positive, (TPtr p1)); (134%positive, (TPtr p1)); (135%positive, hi); (136%positive, hi); (137%positive, hi); (138%positive, hi)];
   Entry f_aes_encrypt (Sig [(TPtr p1); (TPtr p1); lo; lo] hi)
     [(1%positive, (TPtr p1)); (2%positive, (TPtr p1)); (3%positive, lo); (4%positive, lo); (5%positive, hi); (6%positive, lo); (7%positive, hi); (8%positive, hi)];
   Entry f_aes_extend_witness (Sig [(TPtr p1); (TPtr p1); (TPtr p0)] (TPtr p1))
     [(1%positive, (TPtr p1)); (2%positive, (TPtr p1)); (3%positive, (TPtr p0)); (4%positive, lo); (5%positive, lo); (6%positive, lo); (7%positive, lo); (8%positive, lo); (9%positive, (TPtr p1)); (10%positive, (TPtr p1)); (11%positive, (TPtr p1)); (12%positive, lo); (13%positive, lo); (14%positive, lo); (15%positive, (TPtr p1)); (16%positive, (TPtr p1)); (17%positive, lo); (18%positive, lo); (19%positive, lo); (20%positive, lo); (21%positive, lo); (22%positive, lo); (23%positive, lo); (24%positive, lo); (25%positive, lo); (26%positive, lo); (27%positive, (TPtr p1)); (28%positive, lo); (29%positive, lo)];
   Entry f_aes_increment_iv (Sig [(TPtr p0)] lo)
     [(1%positive, (TPtr p0)); (2%positive, lo); (3%positive, (TPtr p0))];
   Entry f_aes_key_schedule_backward_1 (Sig [(TPtr p1); (TPtr p1); (TPtr p1); (TPtr p0)] lo)
     [(1%positive, (TPtr p1)); (2%positive, (TPtr p1)); (3%positive, (TPtr p1)); (4%positive, (TPtr p0)); (5%positive, lo); (6%positive, lo); (7%positive, lo); (8%positive, lo); (9%positive, lo); (10%positive, lo); (11%positive, lo); (12%positive, hi); (13%positive, hi); (14%positive, hi); (15%positive, hi); (16%positive, hi)];
   Entry f_aes_key_schedule_backward_128 (Sig [(TPtr p1); (TPtr p1); lo; lo; (TPtr p0); (TPtr p1)] lo)
     [(1%positive, (TPtr p1)); (2%positive, (TPtr p1)); (3%positive, lo); (4%positive, lo); (5%positive, (TPtr p0)); (6%positive, (TPtr p1)); (7%positive, (TPtr p0)); (8%positive, (TPtr p0)); (9%positive, (TPtr p0)); (10%positive, (TPtr p0)); (11%positive, lo); (12%positive, lo); (13%positive, lo); (14%positive, (TPtr p0)); (15%positive, lo); (16%positive, (TPtr p0)); (17%positive, lo); (18%positive, lo); (19%positive, lo); (20%positive, lo); (21%positive, lo); (22%positive, lo); (23%positive, (TPtr p1)); (24%positive, lo); (25%positive, (TPtr p1)); (26%positive, (TPtr p1)); (27%positive, (TPtr p1)); (28%positive, hi); (29%positive, hi); (30%positive, lo); (31%positive, (TPtr p0)); (32%positive, lo); (33%positive, (TPtr p0)); (34%positive, lo); (35%positive, lo); (36%positive, lo); (37%positive, (TPtr p1)); (38%positive, (TPtr p1)); (39%positive, (TPtr p0)); (40%positive, hi); (41%positive, hi); (42%positive, lo); (43%positive, (TPtr p1)); (44%positive, (TPtr p1)); (45%positive, (TPtr p1)); (46%positive, (TPtr p1)); (47%positive, hi); (48%positive, hi); (49%positive, (TPtr p1)); (50%positive, (TPtr p1)); (51%positive, lo); (52%positive, hi); (53%positive, hi); (54%positive, (TPtr p1)); (55%positive, (TPtr p1)); (56%positive, lo); (57%positive, hi); (58%positive, hi)];
   Entry f_aes_key_schedule_backward_192 (Sig [(TPtr p1); (TPtr p1); lo; lo; (TPtr p0); (TPtr p1)] lo)
     [(1%positive, (TPtr p1)); (2%positive, (TPtr p1)); (3%positive, lo); (4%positive, lo); (5%positive, (TPtr p0)); (6%positive, (TPtr p1)); (7%positive, (TPtr p0)); (8%positive, (TPtr p0)); (9%positive, (TPtr p0)); (10%positive, (TPtr p0)); (11%positive, lo); (12%positive, lo); (13%positive, lo); (14%positive, (TPtr p0)); (15%positive, lo); (16%positive, (TPtr p0)); (17%positive, lo); (18%positive, lo); (19%positive, lo); (20%positive, lo); (21%positive, lo); (22%positive, lo); (23%positive, lo); (24%positive, lo); (25%positive, lo); (26%positive, lo); (27%positive, (TPtr p1)); (28%positive, lo); (29%positive, (TPtr p1)); (30%positive, (TPtr p1)); (31%positive, (TPtr p1)); (32%positive, hi); (33%positive, hi); (34%positive, hi); (35%positive, hi); (36%positive, lo); (37%positive, (TPtr p0)); (38%positive, lo); (39%positive, (TPtr p0)); (40%positive, lo); (41%positive, lo); (42%positive, lo); (43%positive, lo); (44%positive, lo); (45%positive, (TPtr p1)); (46%positive, (TPtr p1)); (47%positive, (TPtr p0)); (48%positive, hi); (49%positive, hi); (50%positive, hi); (51%positive, hi); (52%positive, lo); (53%positive, (TPtr p1)); (54%positive, (TPtr p1)); (55%positive, (TPtr p1)); (56%positive, (TPtr p1)); (57%positive, hi); (58%positive, hi); (59%positive, hi); (60%positive, hi); (61%positive, (TPtr p1)); (62%positive, (TPtr p1)); (63%positive, lo); (64%positive, hi); (65%positive, hi); (66%positive, hi); (67%positive, hi); (68%positive, (TPtr p1)); (69%positive, (TPtr p1)); (70%positive, lo); (71%positive, hi); (72%positive, hi); (73%positive, hi); (74%positive, hi)];
   Entry f_aes_key_schedule_backward_256 (Sig [(TPtr p1); (TPtr p1); lo; lo; (TPtr p0); (TPtr p1)] lo)
     [(1%positive, (TPtr p1)); (2%positive, (TPtr p1)); (3%positive, lo); (4%positive, lo); (5%positive, (TPtr p0)); (6%positive, (TPtr p1)); (7%positive, lo); (8%positive, lo); (9%positive, lo); (10%positive, lo); (11%positive, (TPtr p0)); (12%positive, (TPtr p0)); (13%positive, (TPtr p0)); (14%positive, (TPtr p0)); (15%positive, (TPtr p0)); (16%positive, lo); (17%positive, (TPtr p0)); (18%positive, lo); (19%positive, lo); (20%positive, lo); (21%positive, lo); (22%positive, lo); (23%positive, lo); (24%positive, lo); (25%positive, lo); (26%positive, lo); (27%positive, lo); (28%positive, (TPtr p1)); (29%positive, lo); (30%positive, (TPtr p1)); (31%positive, (TPtr p1)); (32%positive, (TPtr p1)); (33%positive, hi); (34%positive, hi); (35%positive, hi); (36%positive, hi); (37%positive, lo); (38%positive, (TPtr p0)); (39%positive, lo); (40%positive, (TPtr p0)); (41%positive, lo); (42%positive, lo); (43%positive, lo); (44%positive, lo); (45%positive, lo); (46%positive, (TPtr p1)); (47%positive, (TPtr p1)); (48%positive, (TPtr p0)); (49%positive, hi); (50%positive, hi); (51%positive, hi); (52%positive, hi); (53%positive, lo); (54%positive, (TPtr p1)); (55%positive, (TPtr p1)); (56%positive, (TPtr p1)); (57%positive, (TPtr p1)); (58%positive, hi); (59%positive, hi); (60%positive, hi); (61%positive, hi); (62%positive, (TPtr p1)); (63%positive, (TPtr p1)); (64%positive, lo); (65%positive, hi); (66%positive, hi); (67%positive, hi); (68%positive, hi); (69%positive, (TPtr p1)); (70%positive, (TPtr p1)); (71%positive, lo); (72%positive, hi); (73%positive, hi); (74%positive, hi); (75%positive, hi)];
   Entry f_aes_key_schedule_constraints_Mkey_0_128 (Sig [(TPtr p1); (TPtr p1); (TPtr p6); (TPtr p6); (TPtr p1); (TPtr p1); (TPtr p0)] lo)
     [(1%positive, (TPtr p1)); (2%positive, (TPtr p1)); (3%positive, (TPtr p6)); (4%positive, (TPtr p6)); (5%positive, (TPtr p1)); (6%positive, (TPtr p1)); (7%positive, (TPtr p0)); (8%positive, (TPtr p1)); (9%positive, (TPtr p1)); (10%positive, lo); (11%positive, lo); (12%positive, (TPtr p1)); (13%positive, (TPtr p1)); (14%positive, (TPtr p1)); (15%positive, (TPtr p1)); (16%positive, lo); (17%positive, (TPtr p1)); (18%positive, (TPtr p1)); (19%positive, (TPtr p1)); (20%positive, (TPtr p1)); (21%positive, (TPtr p1)); (22%positive, (TPtr p1)); (23%positive, (TPtr p1)); (24%positive, (TPtr p1)); (25%positive, lo); (26%positive, (TPtr p1)); (27%positive, (TPtr p1)); (28%positive, (TPtr p1)); (29%positive, (TPtr p1)); (30%positive, hi); (31%positive, hi); (32%positive, (TPtr p1)); (33%positive, (TPtr p1)); (34%positive, (TPtr p1)); (35%positive, hi); (36%positive, hi); (37%positive, (TPtr p1)); (38%positive, (TPtr p0)); (39%positive, (TPtr p1)); (40%positive, hi); (41%positive, hi)];
   Entry f_aes_key_schedule_constraints_Mkey_0_192 (Sig [(TPtr p1); (TPtr p1); (TPtr p6); (TPtr p6); (TPtr p1); (TPtr p1); (TPtr p0)] lo)
     [(1%positive, (TPtr p1)); (2%positive, (TPtr p1)); (3%positive, (TPtr p6)); (4%positive, (TPtr p6)); (5%positive, (TPtr p1)); (6%positive, (TPtr p1)); (7%positive, (TPtr p0)); (8%positive, (TPtr p1)); (9%positive, (TPtr p1)); (10%positive, lo); (11%positive, lo); (12%positive, (TPtr p1)); (13%positive, (TPtr p1)); (14%positive, (TPtr p1)); (15%positive, (TPtr p1)); (16%positive, lo); (17%positive, (TPtr p1)); (18%positive, (TPtr p1)); (19%positive, (TPtr p1)); (20%positive, (TPtr p1)); (21%positive, (TPtr p1)); (22%positive, (TPtr p1)); (23%positive, (TPtr p1)); (24%positive, (TPtr p1)); (25%positive, lo); (26%positive, (TPtr p1)); (27%positive, (TPtr p1)); (28%positive, (TPtr p1)); (29%positive, (TPtr p1)); (30%positive, hi); (31%positive, hi); (32%positive, hi); (33%positive, hi); (34%positive, (TPtr p1)); (35%positive, (TPtr p1)); (36%positive, (TPtr p1)); (37%positive, hi); (38%positive, hi); (39%positive, hi); (40%positive, hi); (41%positive, (TPtr p1)); (42%positive, (TPtr p0)); (43%positive, (TPtr p1)); (44%positive, hi); (45%positive, hi); (46%positive, hi); (47%positive, hi)];
   Entry f_aes_key_schedule_constraints_Mkey_0_256 (Sig [(TPtr p1); (TPtr p1); (TPtr p6); (TPtr p6); (TPtr p1); (TPtr p1); (TPtr p0)] lo)
     [(1%positive, (TPtr p1)); (2%positive, (TPtr p1)); (3%positive, (TPtr p6)); (4%positive, (TPtr p6)); (5%positive, (TPtr p1)); (6%positive, (TPtr p1)); (7%positive, (TPtr p0)); (8%positive, (TPtr p1)); (9%positive, (TPtr p1)); (10%positive, lo); (11%positive, lo); (12%positive, lo); (13%positive, (TPtr p1)); (14%positive, (TPtr p1)); (15%positive, (TPtr p1)); (16%positive, (TPtr p1)); (17%positive, lo); (18%positive, (TPtr p1)); (19%positive, (TPtr p1)); (20%positive, (TPtr p1)); (21%positive, (TPtr p1)); (22%positive, (TPtr p1)); (23%positive, (TPtr p1)); (24%positive, (TPtr p1)); (25%positive, (TPtr p1)); (26%positive, (TPtr p1)); (27%positive, (TPtr p1)); (28%positive, (TPtr p1)); (29%positive, (TPtr p1)); (30%positive, (TPtr p1)); (31%positive, (TPtr p1)); (32%positive, (TPtr p1)); (33%positive, (TPtr p1)); (34%positive, lo); (35%positive, (TPtr p1)); (36%positive, (TPtr p1)); (37%positive, (TPtr p1)); (38%positive, (TPtr p1)); (39%positive, hi); (40%positive, hi); (41%positive, hi); (42%positive, hi); (43%positive, (TPtr p1)); (44%positive, (TPtr p1)); (45%positive, (TPtr p1)); (46%positive, hi); (47%positive, hi); (48%positive, hi); (49%positive, hi); (50%positive, (TPtr p1)); (51%positive, (TPtr p0)); (52%positive, (TPtr p1)); (53%positive, hi); (54%positive, hi); (55%positive, hi); (56%positive, hi)];
   Entry f_aes_key_schedule_forward_1 (Sig [(TPtr p1); (TPtr p1); (TPtr p0)] lo)
     [(1%positive, (TPtr p1)); (2%positive, (TPtr p1)); (3%positive, (TPtr p0)); (4%positive, lo); (5%positive, lo); (6%positive, lo); (7%positive, lo); (8%positive, lo); (9%positive, lo); (10%positive, lo); (11%positive, lo); (12%positive, (TPtr p1))];
   Entry f_aes_key_schedule_forward_128 (Sig [(TPtr p1); (TPtr p1)] lo)
     [(1%positive, (TPtr p1)); (2%positive, (TPtr p1)); (3%positive, lo); (4%positive, lo); (5%positive, lo); (6%positive, (TPtr p1)); (7%positive, (TPtr p1)); (8%positive, (TPtr p1)); (9%positive, hi); (10%positive, hi)];
   Entry f_aes_key_schedule_forward_192 (Sig [(TPtr p1); (TPtr p1)] lo)
     [(1%positive, (TPtr p1)); (2%positive, (TPtr p1)); (3%positive, lo); (4%positive, lo); (5%positive, lo); (6%positive, (TPtr p1)); (7%positive, (TPtr p1)); (8%positive, (TPtr p1)); (9%positive, hi); (10%positive, hi); (11%positive, hi); (12%positive, hi)];
   Entry f_aes_key_schedule_forward_256 (Sig [(TPtr p1); (TPtr p1)] lo)
     [(1%positive, (TPtr p1)); (2%positive, (TPtr p1)); (3%positive, lo); (4%positive, lo); (5%positive, lo); (6%positive, (TPtr p1)); (7%positive, (TPtr p1)); (8%positive, (TPtr p1)); (9%positive, hi); (10%positive, hi); (11%positive, hi); (12%positive, hi)];
   Entry f_aes_prove (Sig [(TPtr p1); (TPtr p1); (TPtr p5); (TPtr p1); (TPtr p1); (TPtr p1); (TPtr p1); (TPtr p1); (TPtr p0)] lo)
     [(1%positive, (TPtr p1)); (2%positive, (TPtr p1)); (3%positive, (TPtr p5)); (4%positive, (TPtr p1)); (5%positive, (TPtr p1)); (6%positive, (TPtr p1)); (7%positive, (TPtr p1)); (8%positive, (TPtr p1)); (9%positive, (TPtr p0)); (10%positive, lo)];
   Entry f_aes_prove_128 (Sig [(TPtr p1); (TPtr p1); (TPtr p5); (TPtr p1); (TPtr p1); (TPtr p1); (TPtr p1); (TPtr p1); (TPtr p0)] lo)
     [(1%positive, (TPtr p1)); (2%positive, (TPtr p1)); (3%positive, (TPtr p5)); (4%positive, (TPtr p1)); (5%positive, (TPtr p1)); (6%positive, (TPtr p1)); (7%positive, (TPtr p1)); (8%positive, (TPtr p1)); (9%positive, (TPtr p0)); (10%positive, (TPtr p1)); (11%positive, (TPtr p1)); (12%positive, (TPtr p1)); (13%positive, (TPtr p1)); (14%positive, (TPtr p1)); (15%positive, (TPtr p1)); (16%positive, (TPtr p6)); (17%positive, (TPtr p1)); (18%positive, (TPtr p1)); (19%positive, (TPtr p1)); (20%positive, (TPtr p1)); (21%positive, (TPtr p5)); (22%positive, (TPtr p6)); (23%positive, (TPtr p1)); (24%positive, (TPtr p1)); (25%positive, (TPtr p1)); (26%positive, (TPtr p1)); (27%positive, (TPtr p5)); (28%positive, (TPtr p1)); (29%positive, (TPtr p1))];
   Entry f_aes_prove_192 (Sig [(TPtr p1); (TPtr p1); (TPtr p5); (TPtr p1); (TPtr p1); (TPtr p1); (TPtr p1); (TPtr p1); (TPtr p0)] lo)
     [(1%positive, (TPtr p1)); (2%positive, (TPtr p1)); (3%positive, (TPtr p5)); (4%positive, (TPtr p1)); (5%positive, (TPtr p1)); (6%positive, (TPtr p1)); (7%positive, (TPtr p1)); (8%positive, (TPtr p1)); (9%positive, (TPtr p0)); (10%positive, (TPtr p1)); (11%positive, (TPtr p1)); (12%positive, (TPtr p1)); (13%positive, (TPtr p1)); (14%positive, (TPtr p1)); (15%positive, (TPtr p1)); (16%positive, (TPtr p6)); (17%positive, (TPtr p1)); (18%positive, (TPtr p1)); (19%positive, (TPtr p1)); (20%positive, (TPtr p1)); (21%positive, (TPtr p5)); (22%positive, (TPtr p6)); (23%positive, (TPtr p1)); (24%positive, (TPtr p1)); (25%positive, (TPtr p1)); (26%positive, (TPtr p1)); (27%positive, (TPtr p5)); (28%positive, (TPtr p1)); (29%positive, (TPtr p1))];
   Entry f_aes_prove_256 (Sig [(TPtr p1); (TPtr p1); (TPtr p5); (TPtr p1); (TPtr p1); (TPtr p1); (TPtr p1); (TPtr p1); (TPtr p0)] lo)
     [(1%positive, (TPtr p1)); (2%positive, (TPtr p1)); (3%positive, (TPtr p5)); (4%positive, (TPtr p1)); (5%positive, (TPtr p1)); (6%positive, (TPtr p1)); (7%positive, (TPtr p1)); (8%positive, (TPtr p1)); (9%positive, (TPtr p0)); (10%positive, (TPtr p1)); (11%positive, (TPtr p1)); (12%positive, (TPtr p1)); (13%positive, (TPtr p1)); (14%positive, (TPtr p1)); (15%positive, (TPtr p1)); (16%positive, (TPtr p6)); (17%positive, (TPtr p1)); (18%positive, (TPtr p1)); (19%positive, (TPtr p1)); (20%positive, (TPtr p1)); (21%positive, (TPtr p5)); (22%positive, (TPtr p6)); (23%positive, (TPtr p1)); (24%positive, (TPtr p1)); (25%positive, (TPtr p1)); (26%positive, (TPtr p1)); (27%positive, (TPtr p5)); (28%positive, (TPtr p1)); (29%positive, (TPtr p1))];
   Entry f_bf128_bit_to_uint64_mask (Sig [(TPtr p0); lo] lo)
     [(1%positive, (TPtr p0)); (2%positive, lo); (3%positive, (TPtr p0)); (4%positive, lo); (5%positive, lo)];
   Entry f_bf128_bit_to_uint64_mask (Sig [(TPtr p1); lo] hi)
     [(1%positive, (TPtr p1)); (2%positive, lo); (3%positive, (TPtr p1)); (4%positive, lo); (5%positive, lo)];
   Entry f_bf128_byte_combine (Sig [(TPtr p0); (TPtr p0)] lo)
     [(1%positive, (TPtr p0)); (2%positive, (TPtr p0)); (3%positive, (TPtr p0)); (4%positive, lo); (5%positive, (TPtr p0)); (6%positive, lo); (7%positive, lo)];
   Entry f_bf128_byte_combine (Sig [(TPtr p1); (TPtr p1)] lo)
     [(1%positive, (TPtr p1)); (2%positive, (TPtr p1)); (3%positive, (TPtr p1)); (4%positive, lo); (5%positive, (TPtr p1)); (6%positive, hi); (7%positive, hi)];
   Entry f_bf128_byte_combine_bits (Sig [(TPtr p0); lo] lo)
     [(1%positive, (TPtr p0)); (2%positive, lo); (3%positive, (TPtr p0)); (4%positive, lo); (5%positive, (TPtr p0)); (6%positive, lo); (7%positive, (TPtr p0)); (8%positive, lo); (9%positive, (TPtr p0)); (10%positive, lo); (11%positive, (TPtr p0)); (12%positive, lo); (13%positive, (TPtr p0)); (14%positive, lo); (15%positive, (TPtr p0)); (16%positive, lo); (17%positive, lo); (18%positive, lo)];
   Entry f_bf128_byte_combine_bits (Sig [(TPtr p1); hi] lo)
     [(1%positive, (TPtr p1)); (2%positive, hi); (3%positive, (TPtr p1)); (4%positive, hi); (5%positive, (TPtr p0)); (6%positive, hi); (7%positive, (TPtr p0)); (8%positive, hi); (9%positive, (TPtr p0)); (10%positive, hi); (11%positive, (TPtr p0)); (12%positive, hi); (13%positive, (TPtr p0)); (14%positive, hi); (15%positive, (TPtr p0)); (16%positive, hi); (17%positive, hi); (18%positive, hi)];
   Entry f_bf128_dbl (Sig [(TPtr p1); (TPtr p1)] lo)
     [(1%positive, (TPtr p1)); (2%positive, (TPtr p1)); (3%positive, (TPtr p1)); (4%positive, hi); (5%positive, hi); (6%positive, (TPtr p0)); (7%positive, hi); (8%positive, hi)];
   Entry f_bf128_from_bf8 (Sig [(TPtr p0); lo] lo)
     [(1%positive, (TPtr p0)); (2%positive, lo); (3%positive, (TPtr p0))];
   Entry f_bf128_from_bf8 (Sig [(TPtr p1); hi] lo)
     [(1%positive, (TPtr p1)); (2%positive, hi); (3%positive, (TPtr p1))];
   Entry f_bf128_from_bit (Sig [(TPtr p0); lo] lo)
     [(1%positive, (TPtr p0)); (2%positive, lo); (3%positive, (TPtr p0))];
   Entry f_bf128_from_bit (Sig [(TPtr p1); hi] lo)
     [(1%positive, (TPtr p1)); (2%positive, hi); (3%positive, (TPtr p1))];
   Entry f_bf128_load (Sig [(TPtr p0); (TPtr p0)] lo)
     [(1%positive, (TPtr p0)); (2%positive, (TPtr p0)); (3%positive, (TPtr p0))];
   Entry f_bf128_load (Sig [(TPtr p1); (TPtr p1)] lo)
     [(1%positive, (TPtr p1)); (2%positive, (TPtr p1)); (3%positive, (TPtr p1))];
   Entry f_bf128_mul (Sig [(TPtr p0); (TPtr p0); (TPtr p0)] lo)
     [(1%positive, (TPtr p0)); (2%positive, (TPtr p0)); (3%positive, (TPtr p0)); (4%positive, (TPtr p0)); (5%positive, (TPtr p0)); (6%positive, (TPtr p0)); (7%positive, lo); (8%positive, lo); (9%positive, lo); (10%positive, lo); (11%positive, lo); (12%positive, lo); (13%positive, (TPtr p0)); (14%positive, lo); (15%positive, lo); (16%positive, lo); (17%positive, lo); (18%positive, lo)];
   Entry f_bf128_mul (Sig [(TPtr p1); (TPtr p1); (TPtr p0)] lo)
     [(1%positive, (TPtr p1)); (2%positive, (TPtr p1)); (3%positive, (TPtr p0)); (4%positive, (TPtr p1)); (5%positive, (TPtr p0)); (6%positive, (TPtr p1)); (7%positive, lo); (8%positive, hi); (9%positive, hi); (10%positive, lo); (11%positive, hi); (12%positive, hi); (13%positive, (TPtr p0)); (14%positive, hi); (15%positive, hi); (16%positive, lo); (17%positive, hi); (18%positive, hi)];
   Entry f_bf128_mul (Sig [(TPtr p1); (TPtr p1); (TPtr p1)] lo)
     [(1%positive, (TPtr p1)); (2%positive, (TPtr p1)); (3%positive, (TPtr p1)); (4%positive, (TPtr p1)); (5%positive, (TPtr p1)); (6%positive, (TPtr p1)); (7%positive, hi); (8%positive, hi); (9%positive, hi); (10%positive, lo); (11%positive, hi); (12%positive, hi); (13%positive, (TPtr p0)); (14%positive, hi); (15%positive, hi); (16%positive, hi); (17%positive, hi); (18%positive, hi)];
   Entry f_bf128_mul_64 (Sig [(TPtr p1); (TPtr p1); hi] lo)
     [(1%positive, (TPtr p1)); (2%positive, (TPtr p1)); (3%positive, hi); (4%positive, (TPtr p1)); (5%positive, (TPtr p1)); (6%positive, hi); (7%positive, hi); (8%positive, hi); (9%positive, lo); (10%positive, hi); (11%positive, hi); (12%positive, (TPtr p0)); (13%positive, hi); (14%positive, hi); (15%positive, hi); (16%positive, hi); (17%positive, hi)];
   Entry f_bf128_one (Sig [(TPtr p0)] lo)
     [(1%positive, (TPtr p0)); (2%positive, (TPtr p0))];
   Entry f_bf128_store (Sig [(TPtr p1); (TPtr p1)] lo)
     [(1%positive, (TPtr p1)); (2%positive, (TPtr p1)); (3%positive, (TPtr p1))];
   Entry f_bf128_sum_poly (Sig [(TPtr p1); (TPtr p1)] lo)
     [(1%positive, (TPtr p1)); (2%positive, (TPtr p1)); (3%positive, (TPtr p1)); (4%positive, lo); (5%positive, (TPtr p1)); (6%positive, (TPtr p1)); (7%positive, hi); (8%positive, hi)];
   Entry f_bf128_zero (Sig [(TPtr p0)] lo)
     [(1%positive, (TPtr p0)); (2%positive, (TPtr p0))];
   Entry f_bf192_bit_to_uint64_mask (Sig [(TPtr p0); lo] lo)
     [(1%positive, (TPtr p0)); (2%positive, lo); (3%positive, (TPtr p0)); (4%positive, lo); (5%positive, lo)];
   Entry f_bf192_bit_to_uint64_mask (Sig [(TPtr p1); lo] hi)
     [(1%positive, (TPtr p1)); (2%positive, lo); (3%positive, (TPtr p1)); (4%positive, lo); (5%positive, lo)];
   Entry f_bf192_byte_combine (Sig [(TPtr p0); (TPtr p0)] lo)
     [(1%positive, (TPtr p0)); (2%positive, (TPtr p0)); (3%positive, (TPtr p0)); (4%positive, lo); (5%positive, (TPtr p0)); (6%positive, lo); (7%positive, lo); (8%positive, lo); (9%positive, lo)];
   Entry f_bf192_byte_combine (Sig [(TPtr p1); (TPtr p1)] lo)
     [(1%positive, (TPtr p1)); (2%positive, (TPtr p1)); (3%positive, (TPtr p1)); (4%positive, lo); (5%positive, (TPtr p1)); (6%positive, hi); (7%positive, hi); (8%positive, hi); (9%positive, hi)];
   Entry f_bf192_byte_combine_bits (Sig [(TPtr p0); lo] lo)
     [(1%positive, (TPtr p0)); (2%positive, lo); (3%positive, (TPtr p0)); (4%positive, lo); (5%positive, (TPtr p0)); (6%positive, lo); (7%positive, (TPtr p0)); (8%positive, lo); (9%positive, (TPtr p0)); (10%positive, lo); (11%positive, (TPtr p0)); (12%positive, lo); (13%positive, (TPtr p0)); (14%positive, lo); (15%positive, (TPtr p0)); (16%positive, lo); (17%positive, lo); (18%positive, lo); (19%positive, lo); (20%positive, lo)];
   Entry f_bf192_byte_combine_bits (Sig [(TPtr p1); hi] lo)
     [(1%positive, (TPtr p1)); (2%positive, hi); (3%positive, (TPtr p1)); (4%positive, hi); (5%positive, (TPtr p0)); (6%positive, hi); (7%positive, (TPtr p0)); (8%positive, hi); (9%positive, (TPtr p0)); (10%positive, hi); (11%positive, (TPtr p0)); (12%positive, hi); (13%positive, (TPtr p0)); (14%positive, hi); (15%positive, (TPtr p0)); (16%positive, hi); (17%positive, hi); (18%positive, hi); (19%positive, hi); (20%positive, hi)];
   Entry f_bf192_dbl (Sig [(TPtr p1); (TPtr p1)] lo)
     [(1%positive, (TPtr p1)); (2%positive, (TPtr p1)); (3%positive, (TPtr p1)); (4%positive, hi); (5%positive, hi); (6%positive, (TPtr p1))];
   Entry f_bf192_from_bf8 (Sig [(TPtr p0); lo] lo)
     [(1%positive, (TPtr p0)); (2%positive, lo); (3%positive, (TPtr p0))];
   Entry f_bf192_from_bf8 (Sig [(TPtr p1); hi] lo)
     [(1%positive, (TPtr p1)); (2%positive, hi); (3%positive, (TPtr p1))];
   Entry f_bf192_from_bit (Sig [(TPtr p0); lo] lo)
     [(1%positive, (TPtr p0)); (2%positive, lo); (3%positive, (TPtr p0))];
   Entry f_bf192_from_bit (Sig [(TPtr p1); hi] lo)
     [(1%positive, (TPtr p1)); (2%positive, hi); (3%positive, (TPtr p1))];
   Entry f_bf192_load (Sig [(TPtr p0); (TPtr p0)] lo)
     [(1%positive, (TPtr p0)); (2%positive, (TPtr p0)); (3%positive, (TPtr p0))];
   Entry f_bf192_load (Sig [(TPtr p1); (TPtr p1)] lo)
     [(1%positive, (TPtr p1)); (2%positive, (TPtr p1)); (3%positive, (TPtr p1))];
   Entry f_bf192_mul (Sig [(TPtr p0); (TPtr p0); (TPtr p0)] lo)
     [(1%positive, (TPtr p0)); (2%positive, (TPtr p0)); (3%positive, (TPtr p0)); (4%positive, (TPtr p0)); (5%positive, (TPtr p0)); (6%positive, (TPtr p0)); (7%positive, lo); (8%positive, lo); (9%positive, lo); (10%positive, lo); (11%positive, lo); (12%positive, lo); (13%positive, lo); (14%positive, lo); (15%positive, (TPtr p0)); (16%positive, lo); (17%positive, lo); (18%positive, lo); (19%positive, lo); (20%positive, lo)];
   Entry f_bf192_mul (Sig [(TPtr p1); (TPtr p1); (TPtr p0)] lo)
     [(1%positive, (TPtr p1)); (2%positive, (TPtr p1)); (3%positive, (TPtr p0)); (4%positive, (TPtr p1)); (5%positive, (TPtr p0)); (6%positive, (TPtr p1)); (7%positive, lo); (8%positive, hi); (9%positive, hi); (10%positive, hi); (11%positive, hi); (12%positive, lo); (13%positive, hi); (14%positive, hi); (15%positive, (TPtr p1)); (16%positive, lo); (17%positive, hi); (18%positive, hi); (19%positive, hi); (20%positive, hi)];
   Entry f_bf192_mul (Sig [(TPtr p1); (TPtr p1); (TPtr p1)] lo)
     [(1%positive, (TPtr p1)); (2%positive, (TPtr p1)); (3%positive, (TPtr p1)); (4%positive, (TPtr p1)); (5%positive, (TPtr p1)); (6%positive, (TPtr p1)); (7%positive, hi); (8%positive, hi); (9%positive, hi); (10%positive, hi); (11%positive, hi); (12%positive, lo); (13%positive, hi); (14%positive, hi); (15%positive, (TPtr p1)); (16%positive, hi); (17%positive, hi); (18%positive, hi); (19%positive, hi); (20%positive, hi)];
   Entry f_bf192_mul_64 (Sig [(TPtr p1); (TPtr p1); hi] lo)
     [(1%positive, (TPtr p1)); (2%positive, (TPtr p1)); (3%positive, hi); (4%positive, (TPtr p1)); (5%positive, (TPtr p1)); (6%positive, hi); (7%positive, hi); (8%positive, hi); (9%positive, hi); (10%positive, hi); (11%positive, lo); (12%positive, hi); (13%positive, hi); (14%positive, (TPtr p1)); (15%positive, hi); (16%positive, hi); (17%positive, hi); (18%positive, hi); (19%positive, hi)];
   Entry f_bf192_one (Sig [(TPtr p0)] lo)
     [(1%positive, (TPtr p0)); (2%positive, (TPtr p0))];
   Entry f_bf192_shift_left_1 (Sig [(TPtr p0); (TPtr p0)] lo)
     [(1%positive, (TPtr p0)); (2%positive, (TPtr p0)); (3%positive, (TPtr p0)); (4%positive, (TPtr p0)); (5%positive, (TPtr p0)); (6%positive, lo); (7%positive, lo); (8%positive, lo); (9%positive, lo)];
   Entry f_bf192_shift_left_1 (Sig [(TPtr p1); (TPtr p1)] lo)
     [(1%positive, (TPtr p1)); (2%positive, (TPtr p1)); (3%positive, (TPtr p1)); (4%positive, (TPtr p0)); (5%positive, (TPtr p0)); (6%positive, hi); (7%positive, hi); (8%positive, hi); (9%positive, hi)];
   Entry f_bf192_store (Sig [(TPtr p1); (TPtr p1)] lo)
     [(1%positive, (TPtr p1)); (2%positive, (TPtr p1)); (3%positive, (TPtr p1))];
   Entry f_bf192_sum_poly (Sig [(TPtr p1); (TPtr p1)] lo)
     [(1%positive, (TPtr p1)); (2%positive, (TPtr p1)); (3%positive, (TPtr p1)); (4%positive, lo); (5%positive, (TPtr p1)); (6%positive, (TPtr p1)); (7%positive, hi); (8%positive, hi); (9%positive, hi); (10%positive, hi)];
   Entry f_bf192_zero (Sig [(TPtr p0)] lo)
     [(1%positive, (TPtr p0)); (2%positive, (TPtr p0))];
   Entry f_bf256_bit_to_uint64_mask (Sig [(TPtr p0); lo] lo)
     [(1%positive, (TPtr p0)); (2%positive, lo); (3%positive, (TPtr p0)); (4%positive, lo); (5%positive, lo)];
   Entry f_bf256_bit_to_uint64_mask (Sig [(TPtr p1); lo] hi)
     [(1%positive, (TPtr p1)); (2%positive, lo); (3%positive, (TPtr p1)); (4%positive, lo); (5%positive, lo)];
   Entry f_bf256_byte_combine (Sig [(TPtr p0); (TPtr p0)] lo)
     [(1%positive, (TPtr p0)); (2%positive, (TPtr p0)); (3%positive, (TPtr p0)); (4%positive, lo); (5%positive, (TPtr p0)); (6%positive, lo); (7%positive, lo); (8%positive, lo); (9%positive, lo)];
   Entry f_bf256_byte_combine (Sig [(TPtr p1); (TPtr p1)] lo)
     [(1%positive, (TPtr p1)); (2%positive, (TPtr p1)); (3%positive, (TPtr p1)); (4%positive, lo); (5%positive, (TPtr p1)); (6%positive, hi); (7%positive, hi); (8%positive, hi); (9%positive, hi)];
   Entry f_bf256_byte_combine_bits (Sig [(TPtr p0); lo] lo)
     [(1%positive, (TPtr p0)); (2%positive, lo); (3%positive, (TPtr p0)); (4%positive, lo); (5%positive, (TPtr p0)); (6%positive, lo); (7%positive, (TPtr p0)); (8%positive, lo); (9%positive, (TPtr p0)); (10%positive, lo); (11%positive, (TPtr p0)); (12%positive, lo); (13%positive, (TPtr p0)); (14%positive, lo); (15%positive, (TPtr p0)); (16%positive, lo); (17%positive, lo); (18%positive, lo); (19%positive, lo); (20%positive, lo)];
   Entry f_bf256_byte_combine_bits (Sig [(TPtr p1); hi] lo)
     [(1%positive, (TPtr p1)); (2%positive, hi); (3%positive, (TPtr p1)); (4%positive, hi); (5%positive, (TPtr p0)); (6%positive, hi); (7%positive, (TPtr p0)); (8%positive, hi); (9%positive, (TPtr p0)); (10%positive, hi); (11%positive, (TPtr p0)); (12%positive, hi); (13%positive, (TPtr p0)); (14%positive, hi); (15%positive, (TPtr p0)); (16%positive, hi); (17%positive, hi); (18%positive, hi); (19%positive, hi); (20%positive, hi)];
   Entry f_bf256_dbl (Sig [(TPtr p1); (TPtr p1)] lo)
     [(1%positive, (TPtr p1)); (2%positive, (TPtr p1)); (3%positive, (TPtr p1)); (4%positive, hi); (5%positive, hi); (6%positive, (TPtr p0)); (7%positive, hi); (8%positive, hi); (9%positive, hi); (10%positive, hi); (11%positive, (TPtr p0)); (12%positive, hi); (13%positive, hi); (14%positive, hi); (15%positive, hi)];
   Entry f_bf256_from_bf8 (Sig [(TPtr p0); lo] lo)
     [(1%positive, (TPtr p0)); (2%positive, lo); (3%positive, (TPtr p0))];
   Entry f_bf256_from_bf8 (Sig [(TPtr p1); hi] lo)
     [(1%positive, (TPtr p1)); (2%positive, hi); (3%positive, (TPtr p1))];
   Entry f_bf256_from_bit (Sig [(TPtr p0); lo] lo)
     [(1%positive, (TPtr p0)); (2%positive, lo); (3%positive, (TPtr p0))];
   Entry f_bf256_from_bit (Sig [(TPtr p1); hi] lo)
     [(1%positive, (TPtr p1)); (2%positive, hi); (3%positive, (TPtr p1))];
   Entry f_bf256_load (Sig [(TPtr p0); (TPtr p0)] lo)
     [(1%positive, (TPtr p0)); (2%positive, (TPtr p0)); (3%positive, (TPtr p0))];
   Entry f_bf256_load (Sig [(TPtr p1); (TPtr p1)] lo)
     [(1%positive, (TPtr p1)); (2%positive, (TPtr p1)); (3%positive, (TPtr p1))];
   Entry f_bf256_mul (Sig [(TPtr p0); (TPtr p0); (TPtr p0)] lo)
     [(1%positive, (TPtr p0)); (2%positive, (TPtr p0)); (3%positive, (TPtr p0)); (4%positive, (TPtr p0)); (5%positive, (TPtr p0)); (6%positive, (TPtr p0)); (7%positive, (TPtr p0)); (8%positive, lo); (9%positive, lo); (10%positive, lo); (11%positive, lo); (12%positive, lo); (13%positive, lo); (14%positive, lo); (15%positive, lo); (16%positive, (TPtr p0)); (17%positive, lo); (18%positive, lo); (19%positive, lo); (20%positive, lo); (21%positive, lo); (22%positive, lo); (23%positive, lo); (24%positive, lo); (25%positive, lo); (26%positive, lo); (27%positive, lo); (28%positive, lo); (29%positive, lo)];
   Entry f_bf256_mul (Sig [(TPtr p1); (TPtr p1); (TPtr p0)] lo)
     [(1%positive, (TPtr p1)); (2%positive, (TPtr p1)); (3%positive, (TPtr p0)); (4%positive, (TPtr p1)); (5%positive, (TPtr p0)); (6%positive, (TPtr p0)); (7%positive, (TPtr p1)); (8%positive, lo); (9%positive, hi); (10%positive, hi); (11%positive, hi); (12%positive, hi); (13%positive, lo); (14%positive, hi); (15%positive, hi); (16%positive, (TPtr p0)); (17%positive, hi); (18%positive, hi); (19%positive, hi); (20%positive, hi); (21%positive, hi); (22%positive, hi); (23%positive, hi); (24%positive, hi); (25%positive, lo); (26%positive, hi); (27%positive, hi); (28%positive, hi); (29%positive, hi)];
   Entry f_bf256_mul (Sig [(TPtr p1); (TPtr p1); (TPtr p1)] lo)
     [(1%positive, (TPtr p1)); (2%positive, (TPtr p1)); (3%positive, (TPtr p1)); (4%positive, (TPtr p1)); (5%positive, (TPtr p1)); (6%positive, (TPtr p0)); (7%positive, (TPtr p1)); (8%positive, hi); (9%positive, hi); (10%positive, hi); (11%positive, hi); (12%positive, hi); (13%positive, lo); (14%positive, hi); (15%positive, hi); (16%positive, (TPtr p0)); (17%positive, hi); (18%positive, hi); (19%positive, hi); (20%positive, hi); (21%positive, hi); (22%positive, hi); (23%positive, hi); (24%positive, hi); (25%positive, hi); (26%positive, hi); (27%positive, hi); (28%positive, hi); (29%positive, hi)];
   Entry f_bf256_mul_64 (Sig [(TPtr p1); (TPtr p1); hi] lo)
     [(1%positive, (TPtr p1)); (2%positive, (TPtr p1)); (3%positive, hi); (4%positive, (TPtr p1)); (5%positive, (TPtr p0)); (6%positive, (TPtr p1)); (7%positive, hi); (8%positive, hi); (9%positive, hi); (10%positive, hi); (11%positive, hi); (12%positive, lo); (13%positive, hi); (14%positive, hi); (15%positive, (TPtr p0)); (16%positive, hi); (17%positive, hi); (18%positive, hi); (19%positive, hi); (20%positive, hi); (21%positive, hi); (22%positive, hi); (23%positive, hi); (24%positive, hi); (25%positive, hi); (26%positive, hi); (27%positive, hi); (28%positive, hi)];
   Entry f_bf256_one (Sig [(TPtr p0)] lo)
     [(1%positive, (TPtr p0)); (2%positive, (TPtr p0))];
   Entry f_bf256_store (Sig [(TPtr p1); (TPtr p1)] lo)
     [(1%positive, (TPtr p1)); (2%positive, (TPtr p1)); (3%positive, (TPtr p1))];
   Entry f_bf256_sum_poly (Sig [(TPtr p1); (TPtr p1)] lo)
     [(1%positive, (TPtr p1)); (2%positive, (TPtr p1)); (3%positive, (TPtr p1)); (4%positive, lo); (5%positive, (TPtr p1)); (6%positive, (TPtr p1)); (7%positive, hi); (8%positive, hi); (9%positive, hi); (10%positive, hi)];
   Entry f_bf256_zero (Sig [(TPtr p0)] lo)
     [(1%positive, (TPtr p0)); (2%positive, (TPtr p0))];
   Entry f_bf64_add (Sig [hi; hi] hi)
     [(1%positive, hi); (2%positive, hi)];
   Entry f_bf64_load (Sig [(TPtr p1)] hi)
     [(1%positive, (TPtr p1)); (2%positive, (TPtr p1))];
   Entry f_bf64_mul (Sig [hi; hi] hi)
     [(1%positive, hi); (2%positive, hi); (3%positive, hi); (4%positive, lo); (5%positive, hi)];
   Entry f_bf64_one (Sig [] lo)
     [];
   Entry f_bf64_zero (Sig [] lo)
     [];
   Entry f_bf8_inv (Sig [hi] hi)
     [(1%positive, hi); (2%positive, hi); (3%positive, hi); (4%positive, hi); (5%positive, hi); (6%positive, hi); (7%positive, hi); (8%positive, hi); (9%positive, hi); (10%positive, hi); (11%positive, hi); (12%positive, hi); (13%positive, hi); (14%positive, hi); (15%positive, hi); (16%positive, hi); (17%positive, hi); (18%positive, hi); (19%positive, hi); (20%positive, hi); (21%positive, hi); (22%positive, hi)];
   Entry f_bf8_load (Sig [(TPtr p0)] lo)
     [(1%positive, (TPtr p0))];
   Entry f_bf8_load (Sig [(TPtr p1)] hi)
     [(1%positive, (TPtr p1))];
   Entry f_bf8_mul (Sig [hi; lo] hi)
     [(1%positive, hi); (2%positive, lo); (3%positive, hi); (4%positive, lo); (5%positive, hi)];
   Entry f_bf8_mul (Sig [hi; hi] hi)
     [(1%positive, hi); (2%positive, hi); (3%positive, hi); (4%positive, lo); (5%positive, hi)];
   Entry f_bf8_square (Sig [hi] hi)
     [(1%positive, hi); (2%positive, hi); (3%positive, hi); (4%positive, lo); (5%positive, hi)];
   Entry f_bf8_store (Sig [(TPtr p1); hi] lo)
     [(1%positive, (TPtr p1)); (2%positive, hi)];
   Entry f_column_to_row_major_and_shrink_V_128 (Sig [(TPtr p5); lo] (TPtr p1))
     [(1%positive, (TPtr p5)); (2%positive, lo); (3%positive, (TPtr p1)); (4%positive, (TPtr p1)); (5%positive, lo); (6%positive, (TPtr p1)); (7%positive, lo); (8%positive, lo); (9%positive, (TPtr p1)); (10%positive, (TPtr p1)); (11%positive, (TPtr p1))];
   Entry f_column_to_row_major_and_shrink_V_192 (Sig [(TPtr p5); lo] (TPtr p1))
     [(1%positive, (TPtr p5)); (2%positive, lo); (3%positive, (TPtr p1)); (4%positive, (TPtr p1)); (5%positive, lo); (6%positive, (TPtr p1)); (7%positive, lo); (8%positive, lo); (9%positive, (TPtr p1)); (10%positive, (TPtr p1)); (11%positive, (TPtr p1))];
   Entry f_column_to_row_major_and_shrink_V_256 (Sig [(TPtr p5); lo] (TPtr p1))
     [(1%positive, (TPtr p5)); (2%positive, lo); (3%positive, (TPtr p1)); (4%positive, (TPtr p1)); (5%positive, lo); (6%positive, (TPtr p1)); (7%positive, lo); (8%positive, lo); (9%positive, (TPtr p1)); (10%positive, (TPtr p1)); (11%positive, (TPtr p1))];
   Entry f_compute_h1 (Sig [(TPtr p1); (TPtr p1); lo; lo] hi)
     [(1%positive, (TPtr p1)); (2%positive, (TPtr p1)); (3%positive, lo); (4%positive, lo); (5%positive, hi); (6%positive, hi); (7%positive, lo); (8%positive, lo); (9%positive, (TPtr p1)); (10%positive, lo); (11%positive, hi); (12%positive, lo); (13%positive, hi); (14%positive, lo); (15%positive, hi); (16%positive, hi); (17%positive, hi); (18%positive, hi); (19%positive, hi); (20%positive, hi); (21%positive, hi); (22%positive, hi)];
   Entry f_compute_sbox (Sig [hi] hi)
     [(1%positive, hi); (2%positive, hi); (3%positive, hi); (4%positive, hi)];
   Entry f_contains_zero (Sig [(TPtr p1)] hi)
     [(1%positive, (TPtr p1))];
   Entry f_create_tree (Sig [(TPtr p7); (TPtr p0); lo] lo)
     [(1%positive, (TPtr p7)); (2%positive, (TPtr p0)); (3%positive, lo); (4%positive, (TPtr p7)); (5%positive, (TPtr p5)); (6%positive, (TPtr p0)); (7%positive, (TPtr p0)); (8%positive, lo); (9%positive, lo); (10%positive, (TPtr p1))];
   Entry f_em_enc_backward_128 (Sig [(TPtr p1); (TPtr p0); (TPtr p1); lo; lo; (TPtr p0); (TPtr p1)] lo)
     [(1%positive, (TPtr p1)); (2%positive, (TPtr p0)); (3%positive, (TPtr p1)); (4%positive, lo); (5%positive, lo); (6%positive, (TPtr p0)); (7%positive, (TPtr p1)); (8%positive, (TPtr p0)); (9%positive, (TPtr p0)); (10%positive, (TPtr p0)); (11%positive, (TPtr p0)); (12%positive, (TPtr p0)); (13%positive, lo); (14%positive, (TPtr p0)); (15%positive, lo); (16%positive, lo); (17%positive, lo); (18%positive, lo); (19%positive, lo); (20%positive, lo); (21%positive, (TPtr p1)); (22%positive, lo); (23%positive, lo); (24%positive, lo); (25%positive, (TPtr p1)); (26%positive, (TPtr p1)); (27%positive, (TPtr p1)); (28%positive, (TPtr p0)); (29%positive, hi); (30%positive, hi); (31%positive, (TPtr p1)); (32%positive, lo); (33%positive, (TPtr p1)); (34%positive, (TPtr p1)); (35%positive, (TPtr p1)); (36%positive, (TPtr p1)); (37%positive, hi); (38%positive, hi); (39%positive, hi); (40%positive, hi); (41%positive, (TPtr p1)); (42%positive, (TPtr p1)); (43%positive, hi); (44%positive, hi); (45%positive, (TPtr p1)); (46%positive, (TPtr p1))];
   Entry f_em_enc_backward_128_1 (Sig [(TPtr p1); (TPtr p1); (TPtr p1); (TPtr p1)] lo)
     [(1%positive, (TPtr p1)); (2%positive, (TPtr p1)); (3%positive, (TPtr p1)); (4%positive, (TPtr p1)); (5%positive, lo); (6%positive, lo); (7%positive, lo); (8%positive, lo); (9%positive, lo); (10%positive, hi); (11%positive, hi); (12%positive, hi); (13%positive, hi); (14%positive, hi); (15%positive, (TPtr p1)); (16%positive, (TPtr p1))];
   Entry f_em_enc_backward_192 (Sig [(TPtr p1); (TPtr p0); (TPtr p1); lo; lo; (TPtr p0); (TPtr p1)] lo)
     [(1%positive, (TPtr p1)); (2%positive, (TPtr p0)); (3%positive, (TPtr p1)); (4%positive, lo); (5%positive, lo); (6%positive, (TPtr p0)); (7%positive, (TPtr p1)); (8%positive, (TPtr p0)); (9%positive, (TPtr p0)); (10%positive, (TPtr p0)); (11%positive, (TPtr p0)); (12%positive, (TPtr p0)); (13%positive, lo); (14%positive, (TPtr p0)); (15%positive, lo); (16%positive, lo); (17%positive, lo); (18%positive, lo); (19%positive, lo); (20%positive, lo); (21%positive, lo); (22%positive, lo); (23%positive, (TPtr p1)); (24%positive, lo); (25%positive, lo); (26%positive, lo); (27%positive, (TPtr p1)); (28%positive, (TPtr p1)); (29%positive, (TPtr p1)); (30%positive, (TPtr p0)); (31%positive, hi); (32%positive, hi); (33%positive, hi); (34%positive, hi); (35%positive, (TPtr p1)); (36%positive, lo); (37%positive, (TPtr p1)); (38%positive, (TPtr p1)); (39%positive, (TPtr p1)); (40%positive, (TPtr p1)); (41%positive, hi); (42%positive, hi); (43%positive, hi); (44%positive, hi); (45%positive, hi); (46%positive, hi); (47%positive, hi); (48%positive, hi); (49%positive, (TPtr p1)); (50%positive, (TPtr p1)); (51%positive, hi); (52%positive, hi); (53%positive, hi); (54%positive, hi); (55%positive, (TPtr p1)); (56%positive, (TPtr p1))];
   Entry f_em_enc_backward_192_1 (Sig [(TPtr p1); (TPtr p1); (TPtr p1); (TPtr p1)] lo)
     [(1%positive, (TPtr p1)); (2%positive, (TPtr p1)); (3%positive, (TPtr p1)); (4%positive, (TPtr p1)); (5%positive, lo); (6%positive, lo); (7%positive, lo); (8%positive, lo); (9%positive, lo); (10%positive, hi); (11%positive, hi); (12%positive, hi); (13%positive, hi); (14%positive, hi); (15%positive, (TPtr p1)); (16%positive, (TPtr p1))];
   Entry f_em_enc_backward_256 (Sig [(TPtr p1); (TPtr p0); (TPtr p1); lo; lo; (TPtr p0); (TPtr p1)] lo)
     [(1%positive, (TPtr p1)); (2%positive, (TPtr p0)); (3%positive, (TPtr p1)); (4%positive, lo); (5%positive, lo); (6%positive, (TPtr p0)); (7%positive, (TPtr p1)); (8%positive, (TPtr p0)); (9%positive, (TPtr p0)); (10%positive, (TPtr p0)); (11%positive, (TPtr p0)); (12%positive, (TPtr p0)); (13%positive, lo); (14%positive, (TPtr p0)); (15%positive, lo); (16%positive, lo); (17%positive, lo); (18%positive, lo); (19%positive, lo); (20%positive, lo); (21%positive, lo); (22%positive, lo); (23%positive, (TPtr p1)); (24%positive, lo); (25%positive, lo); (26%positive, lo); (27%positive, (TPtr p1)); (28%positive, (TPtr p1)); (29%positive, (TPtr p1)); (30%positive, (TPtr p0)); (31%positive, hi); (32%positive, hi); (33%positive, hi); (34%positive, hi); (35%positive, (TPtr p1)); (36%positive, lo); (37%positive, (TPtr p1)); (38%positive, (TPtr p1)); (39%positive, (TPtr p1)); (40%positive, (TPtr p1)); (41%positive, hi); (42%positive, hi); (43%positive, hi); (44%positive, hi); (45%positive, hi); (46%positive, hi); (47%positive, hi); (48%positive, hi); (49%positive, (TPtr p1)); (50%positive, (TPtr p1)); (51%positive, hi); (52%positive, hi); (53%positive, hi); (54%positive, hi); (55%positive, (TPtr p1)); (56%positive, (TPtr p1))];
   Entry f_em_enc_backward_256_1 (Sig [(TPtr p1); (TPtr p1); (TPtr p1); (TPtr p1)] lo)
     [(1%positive, (TPtr p1)); (2%positive, (TPtr p1)); (3%positive, (TPtr p1)); (4%positive, (TPtr p1)); (5%positive, lo); (6%positive, lo); (7%positive, lo); (8%positive, lo); (9%positive, lo); (10%positive, hi); (11%positive, hi); (12%positive, hi); (13%positive, hi); (14%positive, hi); (15%positive, (TPtr p1)); (16%positive, (TPtr p1))];
   Entry f_em_enc_constraints_Mkey_0_128 (Sig [(TPtr p1); (TPtr p1); (TPtr p1); (TPtr p1); (TPtr p6); (TPtr p6)] lo)
     [(1%positive, (TPtr p1)); (2%positive, (TPtr p1)); (3%positive, (TPtr p1)); (4%positive, (TPtr p1)); (5%positive, (TPtr p6)); (6%positive, (TPtr p6)); (7%positive, (TPtr p1)); (8%positive, (TPtr p1)); (9%positive, (TPtr p1)); (10%positive, (TPtr p1)); (11%positive, (TPtr p1)); (12%positive, lo); (13%positive, (TPtr p1)); (14%positive, (TPtr p1)); (15%positive, (TPtr p1)); (16%positive, (TPtr p1)); (17%positive, hi); (18%positive, hi); (19%positive, (TPtr p1)); (20%positive, (TPtr p1)); (21%positive, (TPtr p1)); (22%positive, hi); (23%positive, hi); (24%positive, (TPtr p1)); (25%positive, (TPtr p0)); (26%positive, (TPtr p1)); (27%positive, hi); (28%positive, hi)];
   Entry f_em_enc_constraints_Mkey_0_192 (Sig [(TPtr p1); (TPtr p1); (TPtr p1); (TPtr p1); (TPtr p6); (TPtr p6)] lo)
     [(1%positive, (TPtr p1)); (2%positive, (TPtr p1)); (3%positive, (TPtr p1)); (4%positive, (TPtr p1)); (5%positive, (TPtr p6)); (6%positive, (TPtr p6)); (7%positive, (TPtr p1)); (8%positive, (TPtr p1)); (9%positive, (TPtr p1)); (10%positive, (TPtr p1)); (11%positive, (TPtr p1)); (12%positive, lo); (13%positive, (TPtr p1)); (14%positive, (TPtr p1)); (15%positive, (TPtr p1)); (16%positive, (TPtr p1)); (17%positive, hi); (18%positive, hi); (19%positive, hi); (20%positive, hi); (21%positive, (TPtr p1)); (22%positive, (TPtr p1)); (23%positive, (TPtr p1)); (24%positive, hi); (25%positive, hi); (26%positive, hi); (27%positive, hi); (28%positive, (TPtr p1)); (29%positive, (TPtr p0)); (30%positive, (TPtr p1)); (31%positive, hi); (32%positive, hi); (33%positive, hi); (34%positive, hi)];
   Entry f_em_enc_constraints_Mkey_0_256 (Sig [(TPtr p1); (TPtr p1); (TPtr p1); (TPtr p1); (TPtr p6); (TPtr p6)] lo)
     [(1%positive, (TPtr p1)); (2%positive, (TPtr p1)); (3%positive, (TPtr p1)); (4%positive, (TPtr p1)); (5%positive, (TPtr p6)); (6%positive, (TPtr p6)); (7%positive, (TPtr p1)); (8%positive, (TPtr p1)); (9%positive, (TPtr p1)); (10%positive, (TPtr p1)); (11%positive, (TPtr p1)); (12%positive, lo); (13%positive, (TPtr p1)); (14%positive, (TPtr p1)); (15%positive, (TPtr p1)); (16%positive, (TPtr p1)); (17%positive, hi); (18%positive, hi); (19%positive, hi); (20%positive, hi); (21%positive, (TPtr p1)); (22%positive, (TPtr p1)); (23%positive, (TPtr p1)); (24%positive, hi); (25%positive, hi); (26%positive, hi); (27%positive, hi); (28%positive, (TPtr p1)); (29%positive, (TPtr p0)); (30%positive, (TPtr p1)); (31%positive, hi); (32%positive, hi); (33%positive, hi); (34%positive, hi)];
   Entry f_em_enc_forward_128 (Sig [(TPtr p1); (TPtr p0); (TPtr p1)] lo)
     [(1%positive, (TPtr p1)); (2%positive, (TPtr p0)); (3%positive, (TPtr p1)); (4%positive, lo); (5%positive, (TPtr p1)); (6%positive, (TPtr p1)); (7%positive, (TPtr p1)); (8%positive, (TPtr p1)); (9%positive, (TPtr p0)); (10%positive, hi); (11%positive, hi); (12%positive, (TPtr p0)); (13%positive, (TPtr p0)); (14%positive, lo); (15%positive, lo); (16%positive, lo); (17%positive, lo); (18%positive, (TPtr p0)); (19%positive, (TPtr p1)); (20%positive, lo); (21%positive, (TPtr p1)); (22%positive, (TPtr p1)); (23%positive, (TPtr p0)); (24%positive, (TPtr p0)); (25%positive, (TPtr p0)); (26%positive, (TPtr p0)); (27%positive, (TPtr p1)); (28%positive, (TPtr p1)); (29%positive, (TPtr p1)); (30%positive, hi); (31%positive, hi); (32%positive, (TPtr p1)); (33%positive, (TPtr p1)); (34%positive, (TPtr p1)); (35%positive, hi); (36%positive, hi); (37%positive, (TPtr p1)); (38%positive, (TPtr p1)); (39%positive, (TPtr p1)); (40%positive, hi); (41%positive, hi); (42%positive, (TPtr p1)); (43%positive, (TPtr p1)); (44%positive, hi); (45%positive, hi); (46%positive, (TPtr p1)); (47%positive, (TPtr p1)); (48%positive, hi); (49%positive, hi); (50%positive, (TPtr p1)); (51%positive, (TPtr p1)); (52%positive, (TPtr p1)); (53%positive, hi); (54%positive, hi); (55%positive, (TPtr p1)); (56%positive, (TPtr p1)); (57%positive, (TPtr p1)); (58%positive, hi); (59%positive, hi); (60%positive, (TPtr p1)); (61%positive, (TPtr p1)); (62%positive, (TPtr p0)); (63%positive, hi); (64%positive, hi); (65%positive, (TPtr p1)); (66%positive, (TPtr p1)); (67%positive, hi); (68%positive, hi); (69%positive, (TPtr p1)); (70%positive, (TPtr p1)); (71%positive, (TPtr p1)); (72%positive, hi); (73%positive, hi); (74%positive, (TPtr p1)); (75%positive, (TPtr p1)); (76%positive, (TPtr p1)); (77%positive, hi); (78%positive, hi); (79%positive, (TPtr p1)); (80%positive, (TPtr p1)); (81%positive, (TPtr p0)); (82%positive, hi); (83%positive, hi); (84%positive, (TPtr p1)); (85%positive, (TPtr p1)); (86%positive, (TPtr p1)); (87%positive, hi); (88%positive, hi); (89%positive, (TPtr p1)); (90%positive, (TPtr p1)); (91%positive, (TPtr p1)); (92%positive, hi); (93%positive, hi); (94%positive, (TPtr p1)); (95%positive, (TPtr p1)); (96%positive, (TPtr p1)); (97%positive, hi); (98%positive, hi); (99%positive, (TPtr p1)); (100%positive, (TPtr p1)); (101%positive, (TPtr p0)); (102%positive, hi); (103%positive, hi)];
   Entry f_em_enc_forward_128_1 (Sig [(TPtr p1); (TPtr p1); (TPtr p1)] lo)
     [(1%positive, (TPtr p1)); (2%positive, (TPtr p1)); (3%positive, (TPtr p1)); (4%positive, lo); (5%positive, (TPtr p1)); (6%positive, (TPtr p1)); (7%positive, (TPtr p1)); (8%positive, hi); (9%positive, hi); (10%positive, (TPtr p0)); (11%positive, (TPtr p0)); (12%positive, lo); (13%positive, lo); (14%positive, lo); (15%positive, lo); (16%positive, (TPtr p1)); (17%positive, (TPtr p1)); (18%positive, lo); (19%positive, (TPtr p1)); (20%positive, (TPtr p1)); (21%positive, (TPtr p1)); (22%positive, (TPtr p1)); (23%positive, (TPtr p1)); (24%positive, (TPtr p1)); (25%positive, (TPtr p1)); (26%positive, hi); (27%positive, hi); (28%positive, (TPtr p1)); (29%positive, (TPtr p1)); (30%positive, (TPtr p1)); (31%positive, hi); (32%positive, hi); (33%positive, (TPtr p1)); (34%positive, (TPtr p1)); (35%positive, (TPtr p1)); (36%positive, hi); (37%positive, hi); (38%positive, (TPtr p1)); (39%positive, (TPtr p1)); (40%positive, hi); (41%positive, hi); (42%positive, (TPtr p1)); (43%positive, (TPtr p1)); (44%positive, hi); (45%positive, hi); (46%positive, (TPtr p1)); (47%positive, (TPtr p1)); (48%positive, (TPtr p1)); (49%positive, hi); (50%positive, hi); (51%positive, (TPtr p1)); (52%positive, (TPtr p1)); (53%positive, (TPtr p1)); (54%positive, hi); (55%positive, hi); (56%positive, (TPtr p1)); (57%positive, (TPtr p1)); (58%positive, (TPtr p1)); (59%positive, hi); (60%positive, hi); (61%positive, (TPtr p1)); (62%positive, (TPtr p1)); (63%positive, hi); (64%positive, hi); (65%positive, (TPtr p1)); (66%positive, (TPtr p1)); (67%positive, (TPtr p1)); (68%positive, hi); (69%positive, hi); (70%positive, (TPtr p1)); (71%positive, (TPtr p1)); (72%positive, (TPtr p1)); (73%positive, hi); (74%positive, hi); (75%positive, (TPtr p1)); (76%positive, (TPtr p1)); (77%positive, (TPtr p1)); (78%positive, hi); (79%positive, hi); (80%positive, (TPtr p1)); (81%positive, (TPtr p1)); (82%positive, (TPtr p1)); (83%positive, hi); (84%positive, hi); (85%positive, (TPtr p1)); (86%positive, (TPtr p1)); (87%positive, (TPtr p1)); (88%positive, hi); (89%positive, hi); (90%positive, (TPtr p1)); (91%positive, (TPtr p1)); (92%positive, (TPtr p1)); (93%positive, hi); (94%positive, hi); (95%positive, (TPtr p1)); (96%positive, (TPtr p1)); (97%positive, (TPtr p1)); (98%positive, hi); (99%positive, hi)];
   Entry f_em_enc_forward_192 (Sig [(TPtr p1); (TPtr p0); (TPtr p1)] lo)
     [(1%positive, (TPtr p1)); (2%positive, (TPtr p0)); (3%positive, (TPtr p1)); (4%positive, lo); (5%positive, (TPtr p1)); (6%positive, (TPtr p1)); (7%positive, (TPtr p1)); (8%positive, (TPtr p1)); (9%positive, (TPtr p0)); (10%positive, hi); (11%positive, hi); (12%positive, hi); (13%positive, hi); (14%positive, (TPtr p0)); (15%positive, (TPtr p0)); (16%positive, lo); (17%positive, lo); (18%positive, lo); (19%positive, lo); (20%positive, (TPtr p0)); (21%positive, (TPtr p1)); (22%positive, lo); (23%positive, (TPtr p1)); (24%positive, (TPtr p1)); (25%positive, (TPtr p0)); (26%positive, (TPtr p0)); (27%positive, (TPtr p0)); (28%positive, (TPtr p0)); (29%positive, (TPtr p1)); (30%positive, (TPtr p1)); (31%positive, (TPtr p1)); (32%positive, hi); (33%positive, hi); (34%positive, hi); (35%positive, hi); (36%positive, (TPtr p1)); (37%positive, (TPtr p1)); (38%positive, (TPtr p1)); (39%positive, hi); (40%positive, hi); (41%positive, hi); (42%positive, hi); (43%positive, (TPtr p1)); (44%positive, (TPtr p1)); (45%positive, (TPtr p1)); (46%positive, hi); (47%positive, hi); (48%positive, hi); (49%positive, hi); (50%positive, (TPtr p1)); (51%positive, (TPtr p1)); (52%positive, hi); (53%positive, hi); (54%positive, hi); (55%positive, hi); (56%positive, (TPtr p1)); (57%positive, (TPtr p1)); (58%positive, hi); (59%positive, hi); (60%positive, hi); (61%positive, hi); (62%positive, (TPtr p1)); (63%positive, (TPtr p1)); (64%positive, (TPtr p1)); (65%positive, hi); (66%positive, hi); (67%positive, hi); (68%positive, hi); (69%positive, (TPtr p1)); (70%positive, (TPtr p1)); (71%positive, (TPtr p1)); (72%positive, hi); (73%positive, hi); (74%positive, hi); (75%positive, hi); (76%positive, (TPtr p1)); (77%positive, (TPtr p1)); (78%positive, (TPtr p0)); (79%positive, hi); (80%positive, hi); (81%positive, hi); (82%positive, hi); (83%positive, (TPtr p1)); (84%positive, (TPtr p1)); (85%positive, hi); (86%positive, hi); (87%positive, hi); (88%positive, hi); (89%positive, (TPtr p1)); (90%positive, (TPtr p1)); (91%positive, (TPtr p1)); (92%positive, hi); (93%positive, hi); (94%positive, hi); (95%positive, hi); (96%positive, (TPtr p1)); (97%positive, (TPtr p1)); (98%positive, (TPtr p1)); (99%positive, hi); (100%positive, hi); (101%positive, hi); (102%positive, hi); (103%positive, (TPtr p1)); (104%positive, (TPtr p1)); (105%positive, (TPtr p0)); (106%positive, hi); (107%positive, hi); (108%positive, hi); (109%positive, hi); (110%positive, (TPtr p1)); (111%positive, (TPtr p1)); (112%positive, (TPtr p1)); (113%positive, hi); (114%positive, hi); (115%positive, hi); (116%positive, hi); (117%positive, (TPtr p1)); (118%positive, (TPtr p1)); (119%positive, (TPtr p1)); (120%positive, hi); (121%positive, hi); (122%positive, hi); (123%positive, hi); (124%positive, (TPtr p1)); (125%positive, (TPtr p1)); (126%positive, (TPtr p1)); (127%positive, hi); (128%positive, hi); (129%positive, hi); (130%positive, hi); (131%positive, (TPtr p1)); (132%positive, (TPtr p1)); (133%positive, (TPtr p0)); (134%positive, hi); (135%positive, hi); (136%positive, hi); (137%positive, hi)];
   Entry f_em_enc_forward_192_1 (Sig [(TPtr p1); (TPtr p1); (TPtr p1)] lo)
     [(1%positive, (TPtr p1)); (2%positive, (TPtr p1)); (3%positive, (TPtr p1)); (4%positive, lo); (5%positive, (TPtr p1)); (6%positive, (TPtr p1)); (7%positive, (TPtr p1)); (8%positive, hi); (9%positive, hi); (10%positive, hi); (11%positive, hi); (12%positive, (TPtr p0)); (13%positive, (TPtr p0)); (14%positive, lo); (15%positive, lo); (16%positive, lo); (17%positive, lo); (18%positive, (TPtr p1)); (19%positive, (TPtr p1)); (20%positive, lo); (21%positive, (TPtr p1)); (22%positive, (TPtr p1)); (23%positive, (TPtr p1)); (24%positive, (TPtr p1)); (25%positive, (TPtr p1)); (26%positive, (TPtr p1)); (27%positive, (TPtr p1)); (28%positive, hi); (29%positive, hi); (30%positive, hi); (31%positive, hi); (32%positive, (TPtr p1)); (33%positive, (TPtr p1)); (34%positive, (TPtr p1)); (35%positive, hi); (36%positive, hi); (37%positive, hi); (38%positive, hi); (39%positive, (TPtr p1)); (40%positive, (TPtr p1)); (41%positive, (TPtr p1)); (42%positive, hi); (43%positive, hi); (44%positive, hi); (45%positive, hi); (46%positive, (TPtr p1)); (47%positive, (TPtr p1)); (48%positive, hi); (49%positive, hi); (50%positive, hi); (51%positive, hi); (52%positive, (TPtr p1)); (53%positive, (TPtr p1)); (54%positive, hi); (55%positive, hi); (56%positive, hi); (57%positive, hi); (58%positive, (TPtr p1)); (59%positive, (TPtr p1)); (60%positive, (TPtr p1)); (61%positive, hi); (62%positive, hi); (63%positive, hi); (64%positive, hi); (65%positive, (TPtr p1)); (66%positive, (TPtr p1)); (67%positive, (TPtr p1)); (68%positive, hi); (69%positive, hi); (70%positive, hi); (71%positive, hi); (72%positive, (TPtr p1)); (73%positive, (TPtr p1)); (74%positive, (TPtr p1)); (75%positive, hi); (76%positive, hi); (77%positive, hi); (78%positive, hi); (79%positive, (TPtr p1)); (80%positive, (TPtr p1)); (81%positive, hi); (82%positive, hi); (83%positive, hi); (84%positive, hi); (85%positive, (TPtr p1)); (86%positive, (TPtr p1)); (87%positive, (TPtr p1)); (88%positive, hi); (89%positive, hi); (90%positive, hi); (91%positive, hi); (92%positive, (TPtr p1)); (93%positive, (TPtr p1)); (94%positive, (TPtr p1)); (95%positive, hi); (96%positive, hi); (97%positive, hi); (98%positive, hi); (99%positive, (TPtr p1)); (100%positive, (TPtr p1)); (101%positive, (TPtr p1)); (102%positive, hi); (103%positive, hi); (104%positive, hi); (105%positive, hi); (106%positive, (TPtr p1)); (107%positive, (TPtr p1)); (108%positive, (TPtr p1)); (109%positive, hi); (110%positive, hi); (111%positive, hi); (112%positive, hi); (113%positive, (TPtr p1)); (114%positive, (TPtr p1)); (115%positive, (TPtr p1)); (116%positive, hi); (117%positive, hi); (118%positive, hi); (119%positive, hi); (120%positive, (TPtr p1)); (121%positive, (TPtr p1)); (122%positive, (TPtr p1)); (123%positive, hi); (124%positive, hi); (125%positive, hi); (126%positive, hi); (127%positive, (TPtr p1)); (128%positive, (TPtr p1)); (129%positive, (TPtr p1)); (130%positive, hi); (131%positive, hi); (132%positive, hi); (133%positive, hi)];
   Entry f_em_enc_forward_256 (Sig [(TPtr p1); (TPtr p0); (TPtr p1)] lo)
     [(1%positive, (TPtr p1)); (2%positive, (TPtr p0)); (3%positive, (TPtr p1)); (4%positive, lo); (5%positive, (TPtr p1)); (6%positive, (TPtr p1)); (7%positive, (TPtr p1)); (8%positive, (TPtr p1)); (9%positive, (TPtr p0)); (10%positive, hi); (11%positive, hi); (12%positive, hi); (13%positive, hi); (14%positive, (TPtr p0)); (15%positive, (TPtr p0)); (16%positive, lo); (17%positive, lo); (18%positive, lo); (19%positive, lo); (20%positive, (TPtr p0)); (21%positive, (TPtr p1)); (22%positive, lo); (23%positive, (TPtr p1)); (24%positive, (TPtr p1)); (25%positive, (TPtr p0)); (26%positive, (TPtr p0)); (27%positive, (TPtr p0)); (28%positive, (TPtr p0)); (29%positive, (TPtr p1)); (30%positive, (TPtr p1)); (31%positive, (TPtr p1)); (32%positive, hi); (33%positive, hi); (34%positive, hi); (35%positive, hi); (36%positive, (TPtr p1)); (37%positive, (TPtr p1)); (38%positive, (TPtr p1)); (39%positive, hi); (40%positive, hi); (41%positive, hi); (42%positive, hi); (43%positive, (TPtr p1)); (44%positive, (TPtr p1)); (45%positive, (TPtr p1)); (46%positive, hi); (47%positive, hi); (48%positive, hi); (49%positive, hi); (50%positive, (TPtr p1)); (51%positive, (TPtr p1)); (52%positive, hi); (53%positive, hi); (54%positive, hi); (55%positive, hi); (56%positive, (TPtr p1)); (57%positive, (TPtr p1)); (58%positive, hi); (59%positive, hi); (60%positive, hi); (61%positive, hi); (62%positive, (TPtr p1)); (63%positive, (TPtr p1)); (64%positive, (TPtr p1)); (65%positive, hi); (66%positive, hi); (67%positive, hi); (68%positive, hi); (69%positive, (TPtr p1)); (70%positive, (TPtr p1)); (71%positive, (TPtr p1)); (72%positive, hi); (73%positive, hi); (74%positive, hi); (75%positive, hi); (76%positive, (TPtr p1)); (77%positive, (TPtr p1)); (78%positive, (TPtr p0)); (79%positive, hi); (80%positive, hi); (81%positive, hi); (82%positive, hi); (83%positive, (TPtr p1)); (84%positive, (TPtr p1)); (85%positive, hi); (86%positive, hi); (87%positive, hi); (88%positive, hi); (89%positive, (TPtr p1)); (90%positive, (TPtr p1)); (91%positive, (TPtr p1)); (92%positive, hi); (93%positive, hi); (94%positive, hi); (95%positive, hi); (96%positive, (TPtr p1)); (97%positive, (TPtr p1)); (98%positive, (TPtr p1)); (99%positive, hi); (100%positive, hi); (101%positive, hi); (102%positive, hi); (103%positive, (TPtr p1)); (104%positive, (TPtr p1)); (105%positive, (TPtr p0)); (106%positive, hi); (107%positive, hi); (108%positive, hi); (109%positive, hi); (110%positive, (TPtr p1)); (111%positive, (TPtr p1)); (112%positive, (TPtr p1)); (113%positive, hi); (114%positive, hi); (115%positive, hi); (116%positive, hi); (117%positive, (TPtr p1)); (118%positive, (TPtr p1)); (119%positive, (TPtr p1)); (120%positive, hi); (121%positive, hi); (122%positive, hi); (123%positive, hi); (124%positive, (TPtr p1)); (125%positive, (TPtr p1)); (126%positive, (TPtr p1)); (127%positive, hi); (128%positive, hi); (129%positive, hi); (130%positive, hi); (131%positive, (TPtr p1)); (132%positive, (TPtr p1)); (133%positive, (TPtr p0)); (134%positive, hi); (135%positive, hi); (136%positive, hi); (137%positive, hi)];
   Entry f_em_enc_forward_256_1 (Sig [(TPtr p1); (TPtr p1); (TPtr p1)] lo)
     [(1%positive, (TPtr p1)); (2%positive, (TPtr p1)); (3%positive, (TPtr p1)); (4%positive, lo); (5%positive, (TPtr p1)); (6%positive, (TPtr p1)); (7%positive, (TPtr p1)); (8%positive, hi); (9%positive, hi); (10%positive, hi); (11%positive, hi); (12%positive, (TPtr p0)); (13%positive, (TPtr p0)); (14%positive, lo); (15%positive, lo); (16%positive, lo); (17%positive, lo); (18%positive, (TPtr p1)); (19%positive, (TPtr p1)); (20%positive, lo); (21%positive, (TPtr p1)); (22%positive, (TPtr p1)); (23%positive, (TPtr p1)); (24%positive, (TPtr p1)); (25%positive, (TPtr p1)); (26%positive, (TPtr p1)); (27%positive, (TPtr p1)); (28%positive, hi); (29%positive, hi); (30%positive, hi); (31%positive, hi); (32%positive, (TPtr p1)); (33%positive, (TPtr p1)); (34%positive, (TPtr p1)); (35%positive, hi); (36%positive, hi); (37%positive, hi); (38%positive, hi); (39%positive, (TPtr p1)); (40%positive, (TPtr p1)); (41%positive, (TPtr p1)); (42%positive, hi); (43%positive, hi); (44%positive, hi); (45%positive, hi); (46%positive, (TPtr p1)); (47%positive, (TPtr p1)); (48%positive, hi); (49%positive, hi); (50%positive, hi); (51%positive, hi); (52%positive, (TPtr p1)); (53%positive, (TPtr p1)); (54%positive, hi); (55%positive, hi); (56%positive, hi); (57%positive, hi); (58%positive, (TPtr p1)); (59%positive, (TPtr p1)); (60%positive, (TPtr p1)); (61%positive, hi); (62%positive, hi); (63%positive, hi); (64%positive, hi); (65%positive, (TPtr p1)); (66%positive, (TPtr p1)); (67%positive, (TPtr p1)); (68%positive, hi); (69%positive, hi); (70%positive, hi); (71%positive, hi); (72%positive, (TPtr p1)); (73%positive, (TPtr p1)); (74%positive, (TPtr p1)); (75%positive, hi); (76%positive, hi); (77%positive, hi); (78%positive, hi); (79%positive, (TPtr p1)); (80%positive, (TPtr p1)); (81%positive, hi); (82%positive, hi); (83%positive, hi); (84%positive, hi); (85%positive, (TPtr p1)); (86%positive, (TPtr p1)); (87%positive, (TPtr p1)); (88%positive, hi); (89%positive, hi); (90%positive, hi); (91%positive, hi); (92%positive, (TPtr p1)); (93%positive, (TPtr p1)); (94%positive, (TPtr p1)); (95%positive, hi); (96%positive, hi); (97%positive, hi); (98%positive, hi); (99%positive, (TPtr p1)); (100%positive, (TPtr p1)); (101%positive, (TPtr p1)); (102%positive, hi); (103%positive, hi); (104%positive, hi); (105%positive, hi); (106%positive, (TPtr p1)); (107%positive, (TPtr p1)); (108%positive, (TPtr p1)); (109%positive, hi); (110%positive, hi); (111%positive, hi); (112%positive, hi); (113%positive, (TPtr p1)); (114%positive, (TPtr p1)); (115%positive, (TPtr p1)); (116%positive, hi); (117%positive, hi); (118%positive, hi); (119%positive, hi); (120%positive, (TPtr p1)); (121%positive, (TPtr p1)); (122%positive, (TPtr p1)); (123%positive, hi); (124%positive, hi); (125%positive, hi); (126%positive, hi); (127%positive, (TPtr p1)); (128%positive, (TPtr p1)); (129%positive, (TPtr p1)); (130%positive, hi); (131%positive, hi); (132%positive, hi); (133%positive, hi)];
   Entry f_em_prove_128 (Sig [(TPtr p1); (TPtr p1); (TPtr p5); (TPtr p1); (TPtr p1); (TPtr p1); (TPtr p1); (TPtr p1)] lo)
     [(1%positive, (TPtr p1)); (2%positive, (TPtr p1)); (3%positive, (TPtr p5)); (4%positive, (TPtr p1)); (5%positive, (TPtr p1)); (6%positive, (TPtr p1)); (7%positive, (TPtr p1)); (8%positive, (TPtr p1)); (9%positive, (TPtr p1)); (10%positive, (TPtr p1)); (11%positive, lo); (12%positive, (TPtr p1)); (13%positive, lo); (14%positive, lo); (15%positive, (TPtr p1)); (16%positive, (TPtr p1)); (17%positive, (TPtr p6)); (18%positive, (TPtr p1)); (19%positive, (TPtr p1)); (20%positive, (TPtr p1)); (21%positive, (TPtr p1)); (22%positive, (TPtr p5)); (23%positive, (TPtr p6)); (24%positive, (TPtr p1)); (25%positive, (TPtr p1)); (26%positive, (TPtr p1)); (27%positive, (TPtr p1)); (28%positive, (TPtr p5)); (29%positive, (TPtr p1)); (30%positive, (TPtr p1))];
   Entry f_em_prove_192 (Sig [(TPtr p1); (TPtr p1); (TPtr p5); (TPtr p1); (TPtr p1); (TPtr p1); (TPtr p1); (TPtr p1)] lo)
     [(1%positive, (TPtr p1)); (2%positive, (TPtr p1)); (3%positive, (TPtr p5)); (4%positive, (TPtr p1)); (5%positive, (TPtr p1)); (6%positive, (TPtr p1)); (7%positive, (TPtr p1)); (8%positive, (TPtr p1)); (9%positive, (TPtr p1)); (10%positive, (TPtr p1)); (11%positive, lo); (12%positive, (TPtr p1)); (13%positive, lo); (14%positive, lo); (15%positive, (TPtr p1)); (16%positive, (TPtr p1)); (17%positive, (TPtr p6)); (18%positive, (TPtr p1)); (19%positive, (TPtr p1)); (20%positive, (TPtr p1)); (21%positive, (TPtr p1)); (22%positive, (TPtr p5)); (23%positive, (TPtr p6)); (24%positive, (TPtr p1)); (25%positive, (TPtr p1)); (26%positive, (TPtr p1)); (27%positive, (TPtr p1)); (28%positive, (TPtr p5)); (29%positive, (TPtr p1)); (30%positive, (TPtr p1))];
   Entry f_em_prove_256 (Sig [(TPtr p1); (TPtr p1); (TPtr p5); (TPtr p1); (TPtr p1); (TPtr p1); (TPtr p1); (TPtr p1)] lo)
     [(1%positive, (TPtr p1)); (2%positive, (TPtr p1)); (3%positive, (TPtr p5)); (4%positive, (TPtr p1)); (5%positive, (TPtr p1)); (6%positive, (TPtr p1)); (7%positive, (TPtr p1)); (8%positive, (TPtr p1)); (9%positive, (TPtr p1)); (10%positive, (TPtr p1)); (11%positive, lo); (12%positive, (TPtr p1)); (13%positive, lo); (14%positive, lo); (15%positive, (TPtr p1)); (16%positive, (TPtr p1)); (17%positive, (TPtr p6)); (18%positive, (TPtr p1)); (19%positive, (TPtr p1)); (20%positive, (TPtr p1)); (21%positive, (TPtr p1)); (22%positive, (TPtr p5)); (23%positive, (TPtr p6)); (24%positive, (TPtr p1)); (25%positive, (TPtr p1)); (26%positive, (TPtr p1)); (27%positive, (TPtr p1)); (28%positive, (TPtr p5)); (29%positive, (TPtr p1)); (30%positive, (TPtr p1))];
   Entry f_expand_key (Sig [(TPtr p1); (TPtr p1); lo; lo; lo] hi)
     [(1%positive, (TPtr p1)); (2%positive, (TPtr p1)); (3%positive, lo); (4%positive, lo); (5%positive, lo); (6%positive, hi); (7%positive, lo); (8%positive, hi); (9%positive, hi); (10%positive, hi); (11%positive, hi); (12%positive, lo); (13%positive, (TPtr p1)); (14%positive, hi); (15%positive, hi); (16%positive, lo)];
   Entry f_expand_seeds (Sig [(TPtr p7); (TPtr p0); (TPtr p0)] lo)
     [(1%positive, (TPtr p7)); (2%positive, (TPtr p0)); (3%positive, (TPtr p0)); (4%positive, lo); (5%positive, lo); (6%positive, lo); (7%positive, lo)];
   Entry f_faest_128f_clear_private_key (Sig [(TPtr p1)] lo)
     [(1%positive, (TPtr p1))];
   Entry f_faest_128f_keygen (Sig [(TPtr p1); (TPtr p1)] lo)
     [(1%positive, (TPtr p1)); (2%positive, (TPtr p1)); (3%positive, lo); (4%positive, lo); (5%positive, hi); (6%positive, lo)];
   Entry f_faest_128f_sign (Sig [(TPtr p1); (TPtr p1); lo; (TPtr p1); (TPtr p0)] lo)
     [(1%positive, (TPtr p1)); (2%positive, (TPtr p1)); (3%positive, lo); (4%positive, (TPtr p1)); (5%positive, (TPtr p0)); (6%positive, (TPtr p1)); (7%positive, lo); (8%positive, lo)];
   Entry f_faest_128f_sign_with_randomness (Sig [(TPtr p1); (TPtr p1); lo; (TPtr p1); lo; (TPtr p1); (TPtr p0)] lo)
     [(1%positive, (TPtr p1)); (2%positive, (TPtr p1)); (3%positive, lo); (4%positive, (TPtr p1)); (5%positive, lo); (6%positive, (TPtr p1)); (7%positive, (TPtr p0)); (8%positive, (TPtr p1)); (9%positive, hi); (10%positive, lo); (11%positive, (TPtr p0))];
   Entry f_faest_128f_validate_keypair (Sig [(TPtr p1); (TPtr p1)] lo)
     [(1%positive, (TPtr p1)); (2%positive, (TPtr p1)); (3%positive, (TPtr p1)); (4%positive, hi); (5%positive, lo); (6%positive, hi); (7%positive, lo)];
   Entry f_faest_128s_clear_private_key (Sig [(TPtr p1)] lo)
     [(1%positive, (TPtr p1))];
   Entry f_faest_128s_keygen (Sig [(TPtr p1); (TPtr p1)] lo)
     [(1%positive, (TPtr p1)); (2%positive, (TPtr p1)); (3%positive, lo); (4%positive, lo); (5%positive, hi); (6%positive, lo)];
   Entry f_faest_128s_sign (Sig [(TPtr p1); (TPtr p1); lo; (TPtr p1); (TPtr p0)] lo)
     [(1%positive, (TPtr p1)); (2%positive, (TPtr p1)); (3%positive, lo); (4%positive, (TPtr p1)); (5%positive, (TPtr p0)); (6%positive, (TPtr p1)); (7%positive, lo); (8%positive, lo)];
   Entry f_faest_128s_sign_with_randomness (Sig [(TPtr p1); (TPtr p1); lo; (TPtr p1); lo; (TPtr p1); (TPtr p0)] lo)
     [(1%positive, (TPtr p1)); (2%positive, (TPtr p1)); (3%positive, lo); (4%positive, (TPtr p1)); (5%positive, lo); (6%positive, (TPtr p1)); (7%positive, (TPtr p0)); (8%positive, (TPtr p1)); (9%positive, hi); (10%positive, lo); (11%positive, (TPtr p0))];
   Entry f_faest_128s_validate_keypair (Sig [(TPtr p1); (TPtr p1)] lo)
     [(1%positive, (TPtr p1)); (2%positive, (TPtr p1)); (3%positive, (TPtr p1)); (4%positive, hi); (5%positive, lo); (6%positive, hi); (7%positive, lo)];
   Entry f_faest_192f_clear_private_key (Sig [(TPtr p1)] lo)
     [(1%positive, (TPtr p1))];
   Entry f_faest_192f_keygen (Sig [(TPtr p1); (TPtr p1)] lo)
     [(1%positive, (TPtr p1)); (2%positive, (TPtr p1)); (3%positive, lo); (4%positive, lo); (5%positive, hi); (6%positive, lo)];
   Entry f_faest_192f_sign (Sig [(TPtr p1); (TPtr p1); lo; (TPtr p1); (TPtr p0)] lo)
     [(1%positive, (TPtr p1)); (2%positive, (TPtr p1)); (3%positive, lo); (4%positive, (TPtr p1)); (5%positive, (TPtr p0)); (6%positive, (TPtr p1)); (7%positive, lo); (8%positive, lo)];
   Entry f_faest_192f_sign_with_randomness (Sig [(TPtr p1); (TPtr p1); lo; (TPtr p1); lo; (TPtr p1); (TPtr p0)] lo)
     [(1%positive, (TPtr p1)); (2%positive, (TPtr p1)); (3%positive, lo); (4%positive, (TPtr p1)); (5%positive, lo); (6%positive, (TPtr p1)); (7%positive, (TPtr p0)); (8%positive, (TPtr p1)); (9%positive, hi); (10%positive, lo); (11%positive, (TPtr p0))];
   Entry f_faest_192f_validate_keypair (Sig [(TPtr p1); (TPtr p1)] lo)
     [(1%positive, (TPtr p1)); (2%positive, (TPtr p1)); (3%positive, (TPtr p1)); (4%positive, hi); (5%positive, lo); (6%positive, hi); (7%positive, lo)];
   Entry f_faest_192s_clear_private_key (Sig [(TPtr p1)] lo)
     [(1%positive, (TPtr p1))];
   Entry f_faest_192s_keygen (Sig [(TPtr p1); (TPtr p1)] lo)
     [(1%positive, (TPtr p1)); (2%positive, (TPtr p1)); (3%positive, lo); (4%positive, lo); (5%positive, hi); (6%positive, lo)];
   Entry f_faest_192s_sign (Sig [(TPtr p1); (TPtr p1); lo; (TPtr p1); (TPtr p0)] lo)
     [(1%positive, (TPtr p1)); (2%positive, (TPtr p1)); (3%positive, lo); (4%positive, (TPtr p1)); (5%positive, (TPtr p0)); (6%positive, (TPtr p1)); (7%positive, lo); (8%positive, lo)];
   Entry f_faest_192s_sign_with_randomness (Sig [(TPtr p1); (TPtr p1); lo; (TPtr p1); lo; (TPtr p1); (TPtr p0)] lo)
     [(1%positive, (TPtr p1)); (2%positive, (TPtr p1)); (3%positive, lo); (4%positive, (TPtr p1)); (5%positive, lo); (6%positive, (TPtr p1)); (7%positive, (TPtr p0)); (8%positive, (TPtr p1)); (9%positive, hi); (10%positive, lo); (11%positive, (TPtr p0))];
   Entry f_faest_192s_validate_keypair (Sig [(TPtr p1); (TPtr p1)] lo)
     [(1%positive, (TPtr p1)); (2%positive, (TPtr p1)); (3%positive, (TPtr p1)); (4%positive, hi); (5%positive, lo); (6%positive, hi); (7%positive, lo)];
   Entry f_faest_256f_clear_private_key (Sig [(TPtr p1)] lo)
     [(1%positive, (TPtr p1))];
   Entry f_faest_256f_keygen (Sig [(TPtr p1); (TPtr p1)] lo)
     [(1%positive, (TPtr p1)); (2%positive, (TPtr p1)); (3%positive, lo); (4%positive, lo); (5%positive, hi); (6%positive, lo)];
   Entry f_faest_256f_sign (Sig [(TPtr p1); (TPtr p1); lo; (TPtr p1); (TPtr p0)] lo)
     [(1%positive, (TPtr p1)); (2%positive, (TPtr p1)); (3%positive, lo); (4%positive, (TPtr p1)); (5%positive, (TPtr p0)); (6%positive, (TPtr p1)); (7%positive, lo); (8%positive, lo)];
   Entry f_faest_256f_sign_with_randomness (Sig [(TPtr p1); (TPtr p1); lo; (TPtr p1); lo; (TPtr p1); (TPtr p0)] lo)
     [(1%positive, (TPtr p1)); (2%positive, (TPtr p1)); (3%positive, lo); (4%positive, (TPtr p1)); (5%positive, lo); (6%positive, (TPtr p1)); (7%positive, (TPtr p0)); (8%positive, (TPtr p1)); (9%positive, hi); (10%positive, lo); (11%positive, (TPtr p0))];
   Entry f_faest_256f_validate_keypair (Sig [(TPtr p1); (TPtr p1)] lo)
     [(1%positive, (TPtr p1)); (2%positive, (TPtr p1)); (3%positive, (TPtr p1)); (4%positive, hi); (5%positive, lo); (6%positive, hi); (7%positive, lo)];
   Entry f_faest_256s_clear_private_key (Sig [(TPtr p1)] lo)
     [(1%positive, (TPtr p1))];
   Entry f_faest_256s_keygen (Sig [(TPtr p1); (TPtr p1)] lo)
     [(1%positive, (TPtr p1)); (2%positive, (TPtr p1)); (3%positive, lo); (4%positive, lo); (5%positive, hi); (6%positive, lo)];
   Entry f_faest_256s_sign (Sig [(TPtr p1); (TPtr p1); lo; (TPtr p1); (TPtr p0)] lo)
     [(1%positive, (TPtr p1)); (2%positive, (TPtr p1)); (3%positive, lo); (4%positive, (TPtr p1)); (5%positive, (TPtr p0)); (6%positive, (TPtr p1)); (7%positive, lo); (8%positive, lo)];
   Entry f_faest_256s_sign_with_randomness (Sig [(TPtr p1); (TPtr p1); lo; (TPtr p1); lo; (TPtr p1); (TPtr p0)] lo)
     [(1%positive, (TPtr p1)); (2%positive, (TPtr p1)); (3%positive, lo); (4%positive, (TPtr p1)); (5%positive, lo); (6%positive, (TPtr p1)); (7%positive, (TPtr p0)); (8%positive, (TPtr p1)); (9%positive, hi); (10%positive, lo); (11%positive, (TPtr p0))];
   Entry f_faest_256s_validate_keypair (Sig [(TPtr p1); (TPtr p1)] lo)
     [(1%positive, (TPtr p1)); (2%positive, (TPtr p1)); (3%positive, (TPtr p1)); (4%positive, hi); (5%positive, lo); (6%positive, hi); (7%positive, lo)];
   Entry f_faest_em_128f_clear_private_key (Sig [(TPtr p1)] lo)
     [(1%positive, (TPtr p1))];
   Entry f_faest_em_128f_keygen (Sig [(TPtr p1); (TPtr p1)] lo)
     [(1%positive, (TPtr p1)); (2%positive, (TPtr p1)); (3%positive, lo); (4%positive, lo); (5%positive, hi); (6%positive, lo)];
   Entry f_faest_em_128f_sign (Sig [(TPtr p1); (TPtr p1); lo; (TPtr p1); (TPtr p0)] lo)
     [(1%positive, (TPtr p1)); (2%positive, (TPtr p1)); (3%positive, lo); (4%positive, (TPtr p1)); (5%positive, (TPtr p0)); (6%positive, (TPtr p1)); (7%positive, lo); (8%positive, lo)];
   Entry f_faest_em_128f_sign_with_randomness (Sig [(TPtr p1); (TPtr p1); lo; (TPtr p1); lo; (TPtr p1); (TPtr p0)] lo)
     [(1%positive, (TPtr p1)); (2%positive, (TPtr p1)); (3%positive, lo); (4%positive, (TPtr p1)); (5%positive, lo); (6%positive, (TPtr p1)); (7%positive, (TPtr p0)); (8%positive, (TPtr p1)); (9%positive, hi); (10%positive, lo); (11%positive, (TPtr p0))];
   Entry f_faest_em_128f_validate_keypair (Sig [(TPtr p1); (TPtr p1)] lo)
     [(1%positive, (TPtr p1)); (2%positive, (TPtr p1)); (3%positive, (TPtr p1)); (4%positive, hi); (5%positive, lo); (6%positive, hi); (7%positive, lo)];
   Entry f_faest_em_128s_clear_private_key (Sig [(TPtr p1)] lo)
     [(1%positive, (TPtr p1))];
   Entry f_faest_em_128s_keygen (Sig [(TPtr p1); (TPtr p1)] lo)
     [(1%positive, (TPtr p1)); (2%positive, (TPtr p1)); (3%positive, lo); (4%positive, lo); (5%positive, hi); (6%positive, lo)];
   Entry f_faest_em_128s_sign (Sig [(TPtr p1); (TPtr p1); lo; (TPtr p1); (TPtr p0)] lo)
     [(1%positive, (TPtr p1)); (2%positive, (TPtr p1)); (3%positive, lo); (4%positive, (TPtr p1)); (5%positive, (TPtr p0)); (6%positive, (TPtr p1)); (7%positive, lo); (8%positive, lo)];
   Entry f_faest_em_128s_sign_with_randomness (Sig [(TPtr p1); (TPtr p1); lo; (TPtr p1); lo; (TPtr p1); (TPtr p0)] lo)
     [(1%positive, (TPtr p1)); (2%positive, (TPtr p1)); (3%positive, lo); (4%positive, (TPtr p1)); (5%positive, lo); (6%positive, (TPtr p1)); (7%positive, (TPtr p0)); (8%positive, (TPtr p1)); (9%positive, hi); (10%positive, lo); (11%positive, (TPtr p0))];
   Entry f_faest_em_128s_validate_keypair (Sig [(TPtr p1); (TPtr p1)] lo)
     [(1%positive, (TPtr p1)); (2%positive, (TPtr p1)); (3%positive, (TPtr p1)); (4%positive, hi); (5%positive, lo); (6%positive, hi); (7%positive, lo)];
   Entry f_faest_em_192f_clear_private_key (Sig [(TPtr p1)] lo)
     [(1%positive, (TPtr p1))];
   Entry f_faest_em_192f_keygen (Sig [(TPtr p1); (TPtr p1)] lo)
     [(1%positive, (TPtr p1)); (2%positive, (TPtr p1)); (3%positive, lo); (4%positive, lo); (5%positive, hi); (6%positive, lo)];
   Entry f_faest_em_192f_sign (Sig [(TPtr p1); (TPtr p1); lo; (TPtr p1); (TPtr p0)] lo)
     [(1%positive, (TPtr p1)); (2%positive, (TPtr p1)); (3%positive, lo); (4%positive, (TPtr p1)); (5%positive, (TPtr p0)); (6%positive, (TPtr p1)); (7%positive, lo); (8%positive, lo)];
   Entry f_faest_em_192f_sign_with_randomness (Sig [(TPtr p1); (TPtr p1); lo; (TPtr p1); lo; (TPtr p1); (TPtr p0)] lo)
     [(1%positive, (TPtr p1)); (2%positive, (TPtr p1)); (3%positive, lo); (4%positive, (TPtr p1)); (5%positive, lo); (6%positive, (TPtr p1)); (7%positive, (TPtr p0)); (8%positive, (TPtr p1)); (9%positive, hi); (10%positive, lo); (11%positive, (TPtr p0))];
   Entry f_faest_em_192f_validate_keypair (Sig [(TPtr p1); (TPtr p1)] lo)
     [(1%positive, (TPtr p1)); (2%positive, (TPtr p1)); (3%positive, (TPtr p1)); (4%positive, hi); (5%positive, lo); (6%positive, hi); (7%positive, lo)];
   Entry f_faest_em_192s_clear_private_key (Sig [(TPtr p1)] lo)
     [(1%positive, (TPtr p1))];
   Entry f_faest_em_192s_keygen (Sig [(TPtr p1); (TPtr p1)] lo)
     [(1%positive, (TPtr p1)); (2%positive, (TPtr p1)); (3%positive, lo); (4%positive, lo); (5%positive, hi); (6%positive, lo)];
   Entry f_faest_em_192s_sign (Sig [(TPtr p1); (TPtr p1); lo; (TPtr p1); (TPtr p0)] lo)
     [(1%positive, (TPtr p1)); (2%positive, (TPtr p1)); (3%positive, lo); (4%positive, (TPtr p1)); (5%positive, (TPtr p0)); (6%positive, (TPtr p1)); (7%positive, lo); (8%positive, lo)];
   Entry f_faest_em_192s_sign_with_randomness (Sig [(TPtr p1); (TPtr p1); lo; (TPtr p1); lo; (TPtr p1); (TPtr p0)] lo)
     [(1%positive, (TPtr p1)); (2%positive, (TPtr p1)); (3%positive, lo); (4%positive, (TPtr p1)); (5%positive, lo); (6%positive, (TPtr p1)); (7%positive, (TPtr p0)); (8%positive, (TPtr p1)); (9%positive, hi); (10%positive, lo); (11%positive, (TPtr p0))];
   Entry f_faest_em_192s_validate_keypair (Sig [(TPtr p1); (TPtr p1)] lo)
     [(1%positive, (TPtr p1)); (2%positive, (TPtr p1)); (3%positive, (TPtr p1)); (4%positive, hi); (5%positive, lo); (6%positive, hi); (7%positive, lo)];
   Entry f_faest_em_256f_clear_private_key (Sig [(TPtr p1)] lo)
     [(1%positive, (TPtr p1))];
   Entry f_faest_em_256f_keygen (Sig [(TPtr p1); (TPtr p1)] lo)
     [(1%positive, (TPtr p1)); (2%positive, (TPtr p1)); (3%positive, lo); (4%positive, lo); (5%positive, hi); (6%positive, lo)];
   Entry f_faest_em_256f_sign (Sig [(TPtr p1); (TPtr p1); lo; (TPtr p1); (TPtr p0)] lo)
     [(1%positive, (TPtr p1)); (2%positive, (TPtr p1)); (3%positive, lo); (4%positive, (TPtr p1)); (5%positive, (TPtr p0)); (6%positive, (TPtr p1)); (7%positive, lo); (8%positive, lo)];
   Entry f_faest_em_256f_sign_with_randomness (Sig [(TPtr p1); (TPtr p1); lo; (TPtr p1); lo; (TPtr p1); (TPtr p0)] lo)
     [(1%positive, (TPtr p1)); (2%positive, (TPtr p1)); (3%positive, lo); (4%positive, (TPtr p1)); (5%positive, lo); (6%positive, (TPtr p1)); (7%positive, (TPtr p0)); (8%positive, (TPtr p1)); (9%positive, hi); (10%positive, lo); (11%positive, (TPtr p0))];
   Entry f_faest_em_256f_validate_keypair (Sig [(TPtr p1); (TPtr p1)] lo)
     [(1%positive, (TPtr p1)); (2%positive, (TPtr p1)); (3%positive, (TPtr p1)); (4%positive, hi); (5%positive, lo); (6%positive, hi); (7%positive, lo)];
   Entry f_faest_em_256s_clear_private_key (Sig [(TPtr p1)] lo)
     [(1%positive, (TPtr p1))];
   Entry f_faest_em_256s_keygen (Sig [(TPtr p1); (TPtr p1)] lo)
     [(1%positive, (TPtr p1)); (2%positive, (TPtr p1)); (3%positive, lo); (4%positive, lo); (5%positive, hi); (6%positive, lo)];
   Entry f_faest_em_256s_sign (Sig [(TPtr p1); (TPtr p1); lo; (TPtr p1); (TPtr p0)] lo)
     [(1%positive, (TPtr p1)); (2%positive, (TPtr p1)); (3%positive, lo); (4%positive, (TPtr p1)); (5%positive, (TPtr p0)); (6%positive, (TPtr p1)); (7%positive, lo); (8%positive, lo)];
   Entry f_faest_em_256s_sign_with_randomness (Sig [(TPtr p1); (TPtr p1); lo; (TPtr p1); lo; (TPtr p1); (TPtr p0)] lo)
     [(1%positive, (TPtr p1)); (2%positive, (TPtr p1)); (3%positive, lo); (4%positive, (TPtr p1)); (5%positive, lo); (6%positive, (TPtr p1)); (7%positive, (TPtr p0)); (8%positive, (TPtr p1)); (9%positive, hi); (10%positive, lo); (11%positive, (TPtr p0))];
   Entry f_faest_em_256s_validate_keypair (Sig [(TPtr p1); (TPtr p1)] lo)
     [(1%positive, (TPtr p1)); (2%positive, (TPtr p1)); (3%positive, (TPtr p1)); (4%positive, hi); (5%positive, lo); (6%positive, hi); (7%positive, lo)];
   Entry f_faest_explicit_bzero (Sig [(TPtr p1); lo] lo)
     [(1%positive, (TPtr p1)); (2%positive, lo); (3%positive, (TPtr p1))];
   Entry f_faest_get_paramset (Sig [(TPtr p0); lo] lo)
     [(1%positive, (TPtr p0)); (2%positive, lo); (3%positive, lo); (4%positive, (TPtr p0)); (5%positive, (TPtr p0)); (6%positive, (TPtr p0)); (7%positive, (TPtr p0)); (8%positive, (TPtr p0)); (9%positive, (TPtr p0)); (10%positive, (TPtr p0)); (11%positive, (TPtr p0)); (12%positive, (TPtr p0)); (13%positive, (TPtr p0)); (14%positive, (TPtr p0)); (15%positive, (TPtr p0)); (16%positive, (TPtr p0))];
   Entry f_faest_sign (Sig [(TPtr p1); (TPtr p1); lo; (TPtr p1); (TPtr p1); (TPtr p1); (TPtr p1); lo; (TPtr p0)] lo)
     [(1%positive, (TPtr p1)); (2%positive, (TPtr p1)); (3%positive, lo); (4%positive, (TPtr p1)); (5%positive, (TPtr p1)); (6%positive, (TPtr p1)); (7%positive, (TPtr p1)); (8%positive, lo); (9%positive, (TPtr p0)); (10%positive, lo); (11%positive, lo); (12%positive, lo); (13%positive, lo); (14%positive, lo); (15%positive, lo); (16%positive, lo); (17%positive, lo); (18%positive, (TPtr p1)); (19%positive, (TPtr p1)); (20%positive, (TPtr p3)); (21%positive, (TPtr p2)); (22%positive, (TPtr p1)); (23%positive, (TPtr p0)); (24%positive, (TPtr p0)); (25%positive, (TPtr p0)); (26%positive, (TPtr p0)); (27%positive, (TPtr p0)); (28%positive, (TPtr p1)); (29%positive, (TPtr p1)); (30%positive, (TPtr p8)); (31%positive, lo); (32%positive, lo); (33%positive, (TPtr p5)); (34%positive, (TPtr p5)); (35%positive, (TPtr p5)); (36%positive, (TPtr p5)); (37%positive, (TPtr p8)); (38%positive, (TPtr p1)); (39%positive, (TPtr p1)); (40%positive, (TPtr p5)); (41%positive, (TPtr p5)); (42%positive, (TPtr p1)); (43%positive, lo); (44%positive, (TPtr p1)); (45%positive, (TPtr p0)); (46%positive, (TPtr p1)); (47%positive, (TPtr p1)); (48%positive, (TPtr p1)); (49%positive, (TPtr p1)); (50%positive, (TPtr p1)); (51%positive, (TPtr p1)); (52%positive, (TPtr p3)); (53%positive, (TPtr p2)); (54%positive, (TPtr p1)); (55%positive, (TPtr p0)); (56%positive, (TPtr p0)); (57%positive, (TPtr p0)); (58%positive, (TPtr p0)); (59%positive, (TPtr p0)); (60%positive, (TPtr p1)); (61%positive, lo); (62%positive, (TPtr p1)); (63%positive, (TPtr p1)); (64%positive, (TPtr p1)); (65%positive, (TPtr p1)); (66%positive, (TPtr p1)); (67%positive, (TPtr p1)); (68%positive, (TPtr p1)); (69%positive, (TPtr p1)); (70%positive, (TPtr p1)); (71%positive, (TPtr p1)); (72%positive, lo); (73%positive, (TPtr p0)); (74%positive, (TPtr p1)); (75%positive, (TPtr p0)); (76%positive, lo); (77%positive, lo); (78%positive, (TPtr p1)); (79%positive, (TPtr p1))];
   Entry f_faest_timingsafe_bcmp (Sig [(TPtr p1); (TPtr p1); lo] hi)
     [(1%positive, (TPtr p1)); (2%positive, (TPtr p1)); (3%positive, lo); (4%positive, (TPtr p1)); (5%positive, (TPtr p1)); (6%positive, hi)];
   Entry f_generate_seeds (Sig [(TPtr p7); (TPtr p1); (TPtr p0); (TPtr p0); lo] lo)
     [(1%positive, (TPtr p7)); (2%positive, (TPtr p1)); (3%positive, (TPtr p0)); (4%positive, (TPtr p0)); (5%positive, lo); (6%positive, lo); (7%positive, (TPtr p7)); (8%positive, (TPtr p5)); (9%positive, (TPtr p0)); (10%positive, (TPtr p0))];
   Entry f_getBinaryTreeNodeCount (Sig [lo] lo)
     [(1%positive, lo)];
   Entry f_getNodeIndex (Sig [lo; lo] lo)
     [(1%positive, lo); (2%positive, lo)];
   Entry f_get_parent (Sig [lo] lo)
     [(1%positive, lo); (2%positive, lo)];
   Entry f_hash_challenge_1 (Sig [(TPtr p1); (TPtr p1); (TPtr p1); (TPtr p1); (TPtr p1); lo; lo; lo] lo)
     [(1%positive, (TPtr p1)); (2%positive, (TPtr p1)); (3%positive, (TPtr p1)); (4%positive, (TPtr p1)); (5%positive, (TPtr p1)); (6%positive, lo); (7%positive, lo); (8%positive, lo); (9%positive, lo); (10%positive, lo); (11%positive, (TPtr p3)); (12%positive, (TPtr p2)); (13%positive, (TPtr p1)); (14%positive, (TPtr p0)); (15%positive, (TPtr p0)); (16%positive, (TPtr p0)); (17%positive, (TPtr p0)); (18%positive, (TPtr p0))];
   Entry f_hash_challenge_2 (Sig [(TPtr p1); (TPtr p1); (TPtr p1); (TPtr p1); (TPtr p1); lo; lo] lo)
     [(1%positive, (TPtr p1)); (2%positive, (TPtr p1)); (3%positive, (TPtr p1)); (4%positive, (TPtr p1)); (5%positive, (TPtr p1)); (6%positive, lo); (7%positive, lo); (8%positive, lo); (9%positive, lo); (10%positive, lo); (11%positive, (TPtr p3)); (12%positive, (TPtr p2)); (13%positive, (TPtr p1)); (14%positive, (TPtr p0)); (15%positive, (TPtr p0)); (16%positive, (TPtr p0)); (17%positive, (TPtr p0)); (18%positive, (TPtr p0))];
   Entry f_hash_challenge_3 (Sig [(TPtr p1); (TPtr p1); (TPtr p1); (TPtr p1); lo] lo)
     [(1%positive, (TPtr p1)); (2%positive, (TPtr p1)); (3%positive, (TPtr p1)); (4%positive, (TPtr p1)); (5%positive, lo); (6%positive, lo); (7%positive, (TPtr p3)); (8%positive, (TPtr p2)); (9%positive, (TPtr p1)); (10%positive, (TPtr p0)); (11%positive, (TPtr p0)); (12%positive, (TPtr p0)); (13%positive, (TPtr p0)); (14%positive, (TPtr p0))];
   Entry f_hash_final (Sig [(TPtr p3)] lo)
     [(1%positive, (TPtr p3)); (2%positive, lo)];
   Entry f_hash_final_x4 (Sig [(TPtr p3)] lo)
     [(1%positive, (TPtr p3)); (2%positive, lo)];
   Entry f_hash_init (Sig [(TPtr p3); lo] lo)
     [(1%positive, (TPtr p3)); (2%positive, lo); (3%positive, lo); (4%positive, lo)];
   Entry f_hash_init_x4 (Sig [(TPtr p3); lo] lo)
     [(1%positive, (TPtr p3)); (2%positive, lo); (3%positive, lo); (4%positive, lo)];
   Entry f_hash_mu (Sig [(TPtr p1); (TPtr p1); (TPtr p1); lo; (TPtr p1); lo; lo] lo)
     [(1%positive, (TPtr p1)); (2%positive, (TPtr p1)); (3%positive, (TPtr p1)); (4%positive, lo); (5%positive, (TPtr p1)); (6%positive, lo); (7%positive, lo); (8%positive, (TPtr p3)); (9%positive, (TPtr p2)); (10%positive, (TPtr p1)); (11%positive, (TPtr p0)); (12%positive, (TPtr p0)); (13%positive, (TPtr p0)); (14%positive, (TPtr p0)); (15%positive, (TPtr p0))];
   Entry f_hash_squeeze (Sig [(TPtr p3); (TPtr p1); lo] lo)
     [(1%positive, (TPtr p3)); (2%positive, (TPtr p1)); (3%positive, lo); (4%positive, lo)];
   Entry f_hash_squeeze_x4 (Sig [(TPtr p3); (TPtr p5); lo] lo)
     [(1%positive, (TPtr p3)); (2%positive, (TPtr p5)); (3%positive, lo); (4%positive, lo)];
   Entry f_hash_squeeze_x4_4 (Sig [(TPtr p3); (TPtr p1); (TPtr p1); (TPtr p1); (TPtr p1); lo] lo)
     [(1%positive, (TPtr p3)); (2%positive, (TPtr p1)); (3%positive, (TPtr p1)); (4%positive, (TPtr p1)); (5%positive, (TPtr p1)); (6%positive, lo); (7%positive, (TPtr p5))];
   Entry f_hash_update (Sig [(TPtr p3); (TPtr p0); lo] lo)
     [(1%positive, (TPtr p3)); (2%positive, (TPtr p0)); (3%positive, lo); (4%positive, lo)];
   Entry f_hash_update (Sig [(TPtr p3); (TPtr p1); lo] lo)
     [(1%positive, (TPtr p3)); (2%positive, (TPtr p1)); (3%positive, lo); (4%positive, lo)];
   Entry f_hash_update_x4 (Sig [(TPtr p3); (TPtr p4); lo] lo)
     [(1%positive, (TPtr p3)); (2%positive, (TPtr p4)); (3%positive, lo); (4%positive, lo)];
   Entry f_hash_update_x4 (Sig [(TPtr p3); (TPtr p5); lo] lo)
     [(1%positive, (TPtr p3)); (2%positive, (TPtr p5)); (3%positive, lo); (4%positive, lo)];
   Entry f_hash_update_x4_1 (Sig [(TPtr p3); (TPtr p0); lo] lo)
     [(1%positive, (TPtr p3)); (2%positive, (TPtr p0)); (3%positive, lo); (4%positive, (TPtr p4))];
   Entry f_hash_update_x4_4 (Sig [(TPtr p3); (TPtr p0); (TPtr p0); (TPtr p0); (TPtr p0); lo] lo)
     [(1%positive, (TPtr p3)); (2%positive, (TPtr p0)); (3%positive, (TPtr p0)); (4%positive, (TPtr p0)); (5%positive, (TPtr p0)); (6%positive, lo); (7%positive, (TPtr p4))];
   Entry f_hash_update_x4_4 (Sig [(TPtr p3); (TPtr p1); (TPtr p1); (TPtr p1); (TPtr p1); lo] lo)
     [(1%positive, (TPtr p3)); (2%positive, (TPtr p1)); (3%positive, (TPtr p1)); (4%positive, (TPtr p1)); (5%positive, (TPtr p1)); (6%positive, lo); (7%positive, (TPtr p5))];
   Entry f_is_left_child (Sig [lo] lo)
     [(1%positive, lo)];
   Entry f_load_state (Sig [(TPtr p1); (TPtr p0); lo] lo)
     [(1%positive, (TPtr p1)); (2%positive, (TPtr p0)); (3%positive, lo); (4%positive, lo); (5%positive, lo)];
   Entry f_load_state (Sig [(TPtr p1); (TPtr p1); lo] lo)
     [(1%positive, (TPtr p1)); (2%positive, (TPtr p1)); (3%positive, lo); (4%positive, lo); (5%positive, hi)];
   Entry f_mix_column (Sig [(TPtr p1); lo] lo)
     [(1%positive, (TPtr p1)); (2%positive, lo); (3%positive, lo); (4%positive, hi); (5%positive, hi); (6%positive, hi); (7%positive, hi); (8%positive, hi); (9%positive, hi); (10%positive, hi); (11%positive, hi); (12%positive, hi); (13%positive, hi); (14%positive, hi); (15%positive, hi)];
   Entry f_owf_128 (Sig [(TPtr p1); (TPtr p1); (TPtr p1)] hi)
     [(1%positive, (TPtr p1)); (2%positive, (TPtr p1)); (3%positive, (TPtr p1)); (4%positive, (TPtr p1)); (5%positive, hi); (6%positive, hi); (7%positive, hi)];
   Entry f_owf_192 (Sig [(TPtr p1); (TPtr p1); (TPtr p1)] hi)
     [(1%positive, (TPtr p1)); (2%positive, (TPtr p1)); (3%positive, (TPtr p1)); (4%positive, (TPtr p1)); (5%positive, hi); (6%positive, hi); (7%positive, hi); (8%positive, hi)];
   Entry f_owf_256 (Sig [(TPtr p1); (TPtr p1); (TPtr p1)] hi)
     [(1%positive, (TPtr p1)); (2%positive, (TPtr p1)); (3%positive, (TPtr p1)); (4%positive, (TPtr p1)); (5%positive, hi); (6%positive, hi); (7%positive, hi); (8%positive, hi)];
   Entry f_owf_em_128 (Sig [(TPtr p1); (TPtr p1); (TPtr p1)] hi)
     [(1%positive, (TPtr p1)); (2%positive, (TPtr p1)); (3%positive, (TPtr p1)); (4%positive, (TPtr p1)); (5%positive, lo); (6%positive, hi); (7%positive, hi); (8%positive, lo); (9%positive, (TPtr p1))];
   Entry f_owf_em_192 (Sig [(TPtr p1); (TPtr p1); (TPtr p1)] hi)
     [(1%positive, (TPtr p1)); (2%positive, (TPtr p1)); (3%positive, (TPtr p1)); (4%positive, (TPtr p1)); (5%positive, lo); (6%positive, hi); (7%positive, hi); (8%positive, lo); (9%positive, (TPtr p1))];
   Entry f_owf_em_256 (Sig [(TPtr p1); (TPtr p1); (TPtr p1)] hi)
     [(1%positive, (TPtr p1)); (2%positive, (TPtr p1)); (3%positive, (TPtr p1)); (4%positive, (TPtr p1)); (5%positive, lo); (6%positive, hi); (7%positive, hi); (8%positive, lo); (9%positive, (TPtr p1))];
   Entry f_prg (Sig [(TPtr p1); (TPtr p0); (TPtr p1); lo; lo] lo)
     [(1%positive, (TPtr p1)); (2%positive, (TPtr p0)); (3%positive, (TPtr p1)); (4%positive, lo); (5%positive, lo); (6%positive, (TPtr p0)); (7%positive, (TPtr p1)); (8%positive, lo); (9%positive, lo); (10%positive, (TPtr p1)); (11%positive, lo); (12%positive, (TPtr p1)); (13%positive, lo); (14%positive, (TPtr p1)); (15%positive, lo); (16%positive, (TPtr p1)); (17%positive, lo); (18%positive, (TPtr p1)); (19%positive, lo); (20%positive, (TPtr p1)); (21%positive, lo); (22%positive, (TPtr p1)); (23%positive, lo); (24%positive, (TPtr p1)); (25%positive, lo); (26%positive, (TPtr p1))];
   Entry f_rand_bytes (Sig [(TPtr p1); lo] lo)
     [(1%positive, (TPtr p1)); (2%positive, lo); (3%positive, lo)];
   Entry f_rijndael192_encrypt_block (Sig [(TPtr p1); (TPtr p1); (TPtr p1)] hi)
     [(1%positive, (TPtr p1)); (2%positive, (TPtr p1)); (3%positive, (TPtr p1)); (4%positive, (TPtr p1)); (5%positive, hi); (6%positive, hi)];
   Entry f_rijndael192_init_round_keys (Sig [(TPtr p1); (TPtr p1)] hi)
     [(1%positive, (TPtr p1)); (2%positive, (TPtr p1)); (3%positive, hi)];
   Entry f_rijndael256_encrypt_block (Sig [(TPtr p1); (TPtr p1); (TPtr p1)] hi)
     [(1%positive, (TPtr p1)); (2%positive, (TPtr p1)); (3%positive, (TPtr p1)); (4%positive, (TPtr p1)); (5%positive, hi); (6%positive, hi)];
   Entry f_rijndael256_init_round_keys (Sig [(TPtr p1); (TPtr p1)] hi)
     [(1%positive, (TPtr p1)); (2%positive, (TPtr p1)); (3%positive, hi)];
   Entry f_rot_word (Sig [(TPtr p1)] lo)
     [(1%positive, (TPtr p1)); (2%positive, hi)];
   Entry f_shift_row (Sig [(TPtr p1); lo] lo)
     [(1%positive, (TPtr p1)); (2%positive, lo); (3%positive, (TPtr p1)); (4%positive, lo); (5%positive, lo); (6%positive, lo); (7%positive, lo)];
   Entry f_signature_a_tilde (Sig [(TPtr p1); (TPtr p0)] (TPtr p1))
     [(1%positive, (TPtr p1)); (2%positive, (TPtr p0)); (3%positive, lo); (4%positive, lo); (5%positive, lo); (6%positive, lo)];
   Entry f_signature_c (Sig [(TPtr p1); lo; (TPtr p0)] (TPtr p1))
     [(1%positive, (TPtr p1)); (2%positive, lo); (3%positive, (TPtr p0)); (4%positive, lo); (5%positive, lo); (6%positive, lo)];
   Entry f_signature_chall_3 (Sig [(TPtr p1); (TPtr p0)] (TPtr p1))
     [(1%positive, (TPtr p1)); (2%positive, (TPtr p0)); (3%positive, lo)];
   Entry f_signature_com (Sig [(TPtr p1); lo; (TPtr p0)] (TPtr p1))
     [(1%positive, (TPtr p1)); (2%positive, lo); (3%positive, (TPtr p0)); (4%positive, lo); (5%positive, lo); (6%positive, lo); (7%positive, lo); (8%positive, lo)];
   Entry f_signature_d (Sig [(TPtr p1); (TPtr p0)] (TPtr p1))
     [(1%positive, (TPtr p1)); (2%positive, (TPtr p0)); (3%positive, lo); (4%positive, lo); (5%positive, lo); (6%positive, lo)];
   Entry f_signature_iv (Sig [(TPtr p1); (TPtr p0)] (TPtr p1))
     [(1%positive, (TPtr p1)); (2%positive, (TPtr p0))];
   Entry f_signature_pdec (Sig [(TPtr p1); lo; (TPtr p0)] (TPtr p1))
     [(1%positive, (TPtr p1)); (2%positive, lo); (3%positive, (TPtr p0)); (4%positive, lo); (5%positive, lo); (6%positive, lo); (7%positive, lo); (8%positive, lo)];
   Entry f_signature_u_tilde (Sig [(TPtr p1); (TPtr p0)] (TPtr p1))
     [(1%positive, (TPtr p1)); (2%positive, (TPtr p0)); (3%positive, lo); (4%positive, lo); (5%positive, lo)];
   Entry f_store_state (Sig [(TPtr p1); (TPtr p1); lo] lo)
     [(1%positive, (TPtr p1)); (2%positive, (TPtr p1)); (3%positive, lo); (4%positive, lo)];
   Entry f_sub_bytes (Sig [(TPtr p1); lo] hi)
     [(1%positive, (TPtr p1)); (2%positive, lo); (3%positive, hi); (4%positive, lo); (5%positive, hi); (6%positive, lo); (7%positive, hi)];
   Entry f_sub_words (Sig [(TPtr p1)] lo)
     [(1%positive, (TPtr p1)); (2%positive, hi); (3%positive, hi); (4%positive, hi); (5%positive, hi)];
   Entry f_vec_com_clear (Sig [(TPtr p8)] lo)
     [(1%positive, (TPtr p8))];
   Entry f_vector_commitment (Sig [(TPtr p1); (TPtr p0); (TPtr p0); lo; (TPtr p8); lo] lo)
     [(1%positive, (TPtr p1)); (2%positive, (TPtr p0)); (3%positive, (TPtr p0)); (4%positive, lo); (5%positive, (TPtr p8)); (6%positive, lo); (7%positive, lo); (8%positive, lo); (9%positive, (TPtr p7)); (10%positive, (TPtr p5)); (11%positive, (TPtr p0)); (12%positive, (TPtr p0)); (13%positive, (TPtr p1)); (14%positive, (TPtr p1)); (15%positive, (TPtr p1)); (16%positive, lo); (17%positive, lo); (18%positive, (TPtr p3)); (19%positive, (TPtr p2)); (20%positive, (TPtr p1)); (21%positive, (TPtr p0)); (22%positive, (TPtr p0)); (23%positive, (TPtr p0)); (24%positive, (TPtr p0)); (25%positive, (TPtr p0)); (26%positive, (TPtr p3)); (27%positive, (TPtr p2)); (28%positive, (TPtr p1)); (29%positive, (TPtr p0)); (30%positive, (TPtr p0)); (31%positive, (TPtr p0)); (32%positive, (TPtr p0)); (33%positive, (TPtr p0)); (34%positive, (TPtr p3)); (35%positive, (TPtr p2)); (36%positive, (TPtr p1)); (37%positive, (TPtr p0)); (38%positive, (TPtr p0)); (39%positive, (TPtr p0)); (40%positive, (TPtr p0)); (41%positive, (TPtr p0)); (42%positive, lo)];
   Entry f_vector_open (Sig [(TPtr p1); (TPtr p1); (TPtr p0); (TPtr p1); (TPtr p1); lo; lo] lo)
     [(1%positive, (TPtr p1)); (2%positive, (TPtr p1)); (3%positive, (TPtr p0)); (4%positive, (TPtr p1)); (5%positive, (TPtr p1)); (6%positive, lo); (7%positive, lo); (8%positive, lo); (9%positive, lo); (10%positive, lo); (11%positive, lo); (12%positive, lo)];
   Entry f_vole_commit (Sig [(TPtr p1); (TPtr p0); lo; (TPtr p0); (TPtr p1); (TPtr p8); (TPtr p1); (TPtr p1); (TPtr p5)] lo)
     [(1%positive, (TPtr p1)); (2%positive, (TPtr p0)); (3%positive, lo); (4%positive, (TPtr p0)); (5%positive, (TPtr p1)); (6%positive, (TPtr p8)); (7%positive, (TPtr p1)); (8%positive, (TPtr p1)); (9%positive, (TPtr p5)); (10%positive, lo); (11%positive, lo); (12%positive, lo); (13%positive, lo); (14%positive, lo); (15%positive, lo); (16%positive, lo); (17%positive, (TPtr p1)); (18%positive, (TPtr p1)); (19%positive, (TPtr p1)); (20%positive, (TPtr p1)); (21%positive, (TPtr p3)); (22%positive, (TPtr p2)); (23%positive, (TPtr p1)); (24%positive, (TPtr p0)); (25%positive, (TPtr p0)); (26%positive, (TPtr p0)); (27%positive, (TPtr p0)); (28%positive, (TPtr p0)); (29%positive, lo); (30%positive, lo); (31%positive, lo); (32%positive, lo)];
   Entry f_vole_hash (Sig [(TPtr p1); (TPtr p1); (TPtr p1); lo; lo] lo)
     [(1%positive, (TPtr p1)); (2%positive, (TPtr p1)); (3%positive, (TPtr p1)); (4%positive, lo); (5%positive, lo); (6%positive, lo)];
   Entry f_vole_hash_128 (Sig [(TPtr p1); (TPtr p1); (TPtr p1); lo] lo)
     [(1%positive, (TPtr p1)); (2%positive, (TPtr p1)); (3%positive, (TPtr p1)); (4%positive, lo); (5%positive, (TPtr p1)); (6%positive, (TPtr p1)); (7%positive, (TPtr p1)); (8%positive, (TPtr p1)); (9%positive, (TPtr p1)); (10%positive, (TPtr p1)); (11%positive, (TPtr p1)); (12%positive, lo); (13%positive, (TPtr p1)); (14%positive, (TPtr p1)); (15%positive, (TPtr p1)); (16%positive, (TPtr p1)); (17%positive, lo); (18%positive, (TPtr p1)); (19%positive, (TPtr p1)); (20%positive, hi); (21%positive, hi); (22%positive, (TPtr p1)); (23%positive, hi); (24%positive, hi); (25%positive, (TPtr p1)); (26%positive, (TPtr p1)); (27%positive, (TPtr p1)); (28%positive, (TPtr p1)); (29%positive, (TPtr p1)); (30%positive, hi); (31%positive, hi); (32%positive, (TPtr p1)); (33%positive, (TPtr p1)); (34%positive, (TPtr p1)); (35%positive, (TPtr p1)); (36%positive, (TPtr p1)); (37%positive, hi); (38%positive, hi)];
   Entry f_vole_hash_192 (Sig [(TPtr p1); (TPtr p1); (TPtr p1); lo] lo)
     [(1%positive, (TPtr p1)); (2%positive, (TPtr p1)); (3%positive, (TPtr p1)); (4%positive, lo); (5%positive, (TPtr p1)); (6%positive, (TPtr p1)); (7%positive, (TPtr p1)); (8%positive, (TPtr p1)); (9%positive, (TPtr p1)); (10%positive, (TPtr p1)); (11%positive, (TPtr p1)); (12%positive, lo); (13%positive, (TPtr p1)); (14%positive, (TPtr p1)); (15%positive, (TPtr p1)); (16%positive, (TPtr p1)); (17%positive, lo); (18%positive, (TPtr p1)); (19%positive, (TPtr p1)); (20%positive, hi); (21%positive, hi); (22%positive, hi); (23%positive, hi); (24%positive, (TPtr p1)); (25%positive, hi); (26%positive, hi); (27%positive, (TPtr p1)); (28%positive, (TPtr p1)); (29%positive, (TPtr p1)); (30%positive, (TPtr p1)); (31%positive, (TPtr p1)); (32%positive, hi); (33%positive, hi); (34%positive, hi); (35%positive, hi); (36%positive, (TPtr p1)); (37%positive, (TPtr p1)); (38%positive, (TPtr p1)); (39%positive, (TPtr p1)); (40%positive, (TPtr p1)); (41%positive, hi); (42%positive, hi); (43%positive, hi); (44%positive, hi)];
   Entry f_vole_hash_256 (Sig [(TPtr p1); (TPtr p1); (TPtr p1); lo] lo)
     [(1%positive, (TPtr p1)); (2%positive, (TPtr p1)); (3%positive, (TPtr p1)); (4%positive, lo); (5%positive, (TPtr p1)); (6%positive, (TPtr p1)); (7%positive, (TPtr p1)); (8%positive, (TPtr p1)); (9%positive, (TPtr p1)); (10%positive, (TPtr p1)); (11%positive, (TPtr p1)); (12%positive, lo); (13%positive, (TPtr p1)); (14%positive, (TPtr p1)); (15%positive, (TPtr p1)); (16%positive, (TPtr p1)); (17%positive, lo); (18%positive, (TPtr p1)); (19%positive, (TPtr p1)); (20%positive, hi); (21%positive, hi); (22%positive, hi); (23%positive, hi); (24%positive, (TPtr p1)); (25%positive, hi); (26%positive, hi); (27%positive, (TPtr p1)); (28%positive, (TPtr p1)); (29%positive, (TPtr p1)); (30%positive, (TPtr p1)); (31%positive, (TPtr p1)); (32%positive, hi); (33%positive, hi); (34%positive, hi); (35%positive, hi); (36%positive, (TPtr p1)); (37%positive, (TPtr p1)); (38%positive, (TPtr p1)); (39%positive, (TPtr p1)); (40%positive, (TPtr p1)); (41%positive, hi); (42%positive, hi); (43%positive, hi); (44%positive, hi)];
   Entry f_xor_u8_array (Sig [(TPtr p1); (TPtr p1); (TPtr p1); lo] lo)
     [(1%positive, (TPtr p1)); (2%positive, (TPtr p1)); (3%positive, (TPtr p1)); (4%positive, lo); (5%positive, lo)];
   Entry f_zk_hash_128_finalize (Sig [(TPtr p1); (TPtr p6); (TPtr p1)] lo)
     [(1%positive, (TPtr p1)); (2%positive, (TPtr p6)); (3%positive, (TPtr p1)); (4%positive, (TPtr p1)); (5%positive, (TPtr p1)); (6%positive, (TPtr p1)); (7%positive, (TPtr p1)); (8%positive, (TPtr p1)); (9%positive, (TPtr p1)); (10%positive, (TPtr p1)); (11%positive, (TPtr p1)); (12%positive, hi); (13%positive, hi)];
   Entry f_zk_hash_128_init (Sig [(TPtr p6); (TPtr p1)] lo)
     [(1%positive, (TPtr p6)); (2%positive, (TPtr p1)); (3%positive, (TPtr p1)); (4%positive, (TPtr p1)); (5%positive, (TPtr p1)); (6%positive, (TPtr p0)); (7%positive, (TPtr p1)); (8%positive, (TPtr p0)); (9%positive, (TPtr p1)); (10%positive, (TPtr p1)); (11%positive, hi)];
   Entry f_zk_hash_128_update (Sig [(TPtr p6); (TPtr p1)] lo)
     [(1%positive, (TPtr p6)); (2%positive, (TPtr p1)); (3%positive, (TPtr p1)); (4%positive, (TPtr p1)); (5%positive, (TPtr p1)); (6%positive, hi); (7%positive, hi); (8%positive, (TPtr p1)); (9%positive, (TPtr p1)); (10%positive, hi); (11%positive, hi)];
   Entry f_zk_hash_192_finalize (Sig [(TPtr p1); (TPtr p6); (TPtr p1)] lo)
     [(1%positive, (TPtr p1)); (2%positive, (TPtr p6)); (3%positive, (TPtr p1)); (4%positive, (TPtr p1)); (5%positive, (TPtr p1)); (6%positive, (TPtr p1)); (7%positive, (TPtr p1)); (8%positive, (TPtr p1)); (9%positive, (TPtr p1)); (10%positive, (TPtr p1)); (11%positive, (TPtr p1)); (12%positive, hi); (13%positive, hi); (14%positive, hi); (15%positive, hi)];
   Entry f_zk_hash_192_init (Sig [(TPtr p6); (TPtr p1)] lo)
     [(1%positive, (TPtr p6)); (2%positive, (TPtr p1)); (3%positive, (TPtr p1)); (4%positive, (TPtr p1)); (5%positive, (TPtr p1)); (6%positive, (TPtr p0)); (7%positive, (TPtr p1)); (8%positive, (TPtr p0)); (9%positive, (TPtr p1)); (10%positive, (TPtr p1)); (11%positive, hi)];
   Entry f_zk_hash_192_update (Sig [(TPtr p6); (TPtr p1)] lo)
     [(1%positive, (TPtr p6)); (2%positive, (TPtr p1)); (3%positive, (TPtr p1)); (4%positive, (TPtr p1)); (5%positive, (TPtr p1)); (6%positive, hi); (7%positive, hi); (8%positive, hi); (9%positive, hi); (10%positive, (TPtr p1)); (11%positive, (TPtr p1)); (12%positive, hi); (13%positive, hi); (14%positive, hi); (15%positive, hi)];
   Entry f_zk_hash_256_finalize (Sig [(TPtr p1); (TPtr p6); (TPtr p1)] lo)
     [(1%positive, (TPtr p1)); (2%positive, (TPtr p6)); (3%positive, (TPtr p1)); (4%positive, (TPtr p1)); (5%positive, (TPtr p1)); (6%positive, (TPtr p1)); (7%positive, (TPtr p1)); (8%positive, (TPtr p1)); (9%positive, (TPtr p1)); (10%positive, (TPtr p1)); (11%positive, (TPtr p1)); (12%positive, hi); (13%positive, hi); (14%positive, hi); (15%positive, hi)];
   Entry f_zk_hash_256_init (Sig [(TPtr p6); (TPtr p1)] lo)
     [(1%positive, (TPtr p6)); (2%positive, (TPtr p1)); (3%positive, (TPtr p1)); (4%positive, (TPtr p1)); (5%positive, (TPtr p1)); (6%positive, (TPtr p0)); (7%positive, (TPtr p1)); (8%positive, (TPtr p0)); (9%positive, (TPtr p1)); (10%positive, (TPtr p1)); (11%positive, hi)];
   Entry f_zk_hash_256_update (Sig [(TPtr p6); (TPtr p1)] lo)
     [(1%positive, (TPtr p6)); (2%positive, (TPtr p1)); (3%positive, (TPtr p1)); (4%positive, (TPtr p1)); (5%positive, (TPtr p1)); (6%positive, hi); (7%positive, hi); (8%positive, hi); (9%positive, hi); (10%positive, (TPtr p1)); (11%positive, (TPtr p1)); (12%positive, hi); (13%positive, hi); (14%positive, hi); (15%positive, hi)]].
