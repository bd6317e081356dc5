(** Generated by tools/ctc/c2v.py from the sources in /repo; see DESIGN.md. *)
(** Types of the variables of each function, for the footprint; checked in Proof/FpTable. *)
From Coq Require Import ZArith List.
From Verif Require Import Model.CtLang Model.CtNames Proof.CtCheck.
Import ListNotations.

Definition lo := TInt false.
Definition p0 := PBytes false.
Definition p1 := PBytes true.
Definition p2 := PStruct (PCons p1 (PCons p1 (PCons p1 (PCons p1 PNil)))).
Definition p3 := PStruct (PCons p2 (PCons p1 (PCons p1 PNil))).
Definition p4 := PPtrs p0.
Definition p5 := PPtrs p1.
Definition p6 := PStruct (PCons p1 (PCons p1 (PCons p1 (PCons p1 (PCons p5 PNil))))).
Definition p7 := PStruct (PCons p5 (PCons p1 (PCons p1 PNil))).
Definition p8 := PStruct (PCons p5 (PCons p5 (PCons p5 (PCons p5 PNil)))).

Definition entries : list entry :=
  [Entry f_ChalDec (Sig [(TPtr p0); lo; lo; lo; lo; lo; (TPtr p1)] lo)
     [(1%positive, (TPtr p0)); (2%positive, lo); (3%positive, lo); (4%positive, lo); (5%positive, lo); (6%positive, lo); (7%positive, (TPtr p1)); (8%positive, lo); (9%positive, lo); (10%positive, lo); (11%positive, lo)];
   Entry f_ChalDec (Sig [(TPtr p1); lo; lo; lo; lo; lo; (TPtr p1)] lo)
     [(1%positive, (TPtr p1)); (2%positive, lo); (3%positive, lo); (4%positive, lo); (5%positive, lo); (6%positive, lo); (7%positive, (TPtr p1)); (8%positive, lo); (9%positive, lo); (10%positive, lo); (11%positive, lo)];
   Entry f_ConvertToVole (Sig [(TPtr p0); (TPtr p1); lo; lo; lo; lo; (TPtr p1); (TPtr p1)] lo)
     [(1%positive, (TPtr p0)); (2%positive, (TPtr p1)); (3%positive, lo); (4%positive, lo); (5%positive, lo); (6%positive, lo); (7%positive, (TPtr p1)); (8%positive, (TPtr p1)); (9%positive, lo); (10%positive, lo); (11%positive, (TPtr p1)); (12%positive, (TPtr p1)); (13%positive, lo); (14%positive, lo); (15%positive, lo); (16%positive, lo)];
   Entry f_ConvertToVole (Sig [(TPtr p1); (TPtr p1); lo; lo; lo; lo; (TPtr p1); (TPtr p1)] lo)
     [(1%positive, (TPtr p1)); (2%positive, (TPtr p1)); (3%positive, lo); (4%positive, lo); (5%positive, lo); (6%positive, lo); (7%positive, (TPtr p1)); (8%positive, (TPtr p1)); (9%positive, lo); (10%positive, lo); (11%positive, (TPtr p1)); (12%positive, (TPtr p1)); (13%positive, lo); (14%positive, lo); (15%positive, lo); (16%positive, lo)];
   Entry f_H0_final (Sig [(TPtr p3); (TPtr p1); lo; (TPtr p1); lo] lo)
     [(1%positive, (TPtr p3)); (2%positive, (TPtr p1)); (3%positive, lo); (4%positive, (TPtr p1)); (5%positive, lo)];
   Entry f_H0_init (Sig [(TPtr p3); lo] lo)
     [(1%positive, (TPtr p3)); (2%positive, lo)];
   Entry f_H0_update (Sig [(TPtr p3); (TPtr p0); lo] lo)
     [(1%positive, (TPtr p3)); (2%positive, (TPtr p0)); (3%positive, lo)];
   Entry f_H0_update (Sig [(TPtr p3); (TPtr p1); lo] lo)
     [(1%positive, (TPtr p3)); (2%positive, (TPtr p1)); (3%positive, lo)];
   Entry f_H0_x4_final (Sig [(TPtr p3); (TPtr p1); (TPtr p1); (TPtr p1); (TPtr p1); lo; (TPtr p1); (TPtr p1); (TPtr p1); (TPtr p1); lo] lo)
     [(1%positive, (TPtr p3)); (2%positive, (TPtr p1)); (3%positive, (TPtr p1)); (4%positive, (TPtr p1)); (5%positive, (TPtr p1)); (6%positive, lo); (7%positive, (TPtr p1)); (8%positive, (TPtr p1)); (9%positive, (TPtr p1)); (10%positive, (TPtr p1)); (11%positive, lo)];
   Entry f_H0_x4_init (Sig [(TPtr p3); lo] lo)
     [(1%positive, (TPtr p3)); (2%positive, lo)];
   Entry f_H0_x4_update (Sig [(TPtr p3); (TPtr p0); (TPtr p0); (TPtr p0); (TPtr p0); lo] lo)
     [(1%positive, (TPtr p3)); (2%positive, (TPtr p0)); (3%positive, (TPtr p0)); (4%positive, (TPtr p0)); (5%positive, (TPtr p0)); (6%positive, lo)];
   Entry f_H0_x4_update (Sig [(TPtr p3); (TPtr p1); (TPtr p1); (TPtr p1); (TPtr p1); lo] lo)
     [(1%positive, (TPtr p3)); (2%positive, (TPtr p1)); (3%positive, (TPtr p1)); (4%positive, (TPtr p1)); (5%positive, (TPtr p1)); (6%positive, lo)];
   Entry f_H1_final (Sig [(TPtr p3); (TPtr p1); lo] lo)
     [(1%positive, (TPtr p3)); (2%positive, (TPtr p1)); (3%positive, lo)];
   Entry f_H1_init (Sig [(TPtr p3); lo] lo)
     [(1%positive, (TPtr p3)); (2%positive, lo)];
   Entry f_H1_update (Sig [(TPtr p3); (TPtr p0); lo] lo)
     [(1%positive, (TPtr p3)); (2%positive, (TPtr p0)); (3%positive, lo)];
   Entry f_H1_update (Sig [(TPtr p3); (TPtr p1); lo] lo)
     [(1%positive, (TPtr p3)); (2%positive, (TPtr p1)); (3%positive, lo)];
   Entry f_H2_final (Sig [(TPtr p3); (TPtr p1); lo] lo)
     [(1%positive, (TPtr p3)); (2%positive, (TPtr p1)); (3%positive, lo)];
   Entry f_H2_init (Sig [(TPtr p3); lo] lo)
     [(1%positive, (TPtr p3)); (2%positive, lo)];
   Entry f_H2_update (Sig [(TPtr p3); (TPtr p0); lo] lo)
     [(1%positive, (TPtr p3)); (2%positive, (TPtr p0)); (3%positive, lo)];
   Entry f_H2_update (Sig [(TPtr p3); (TPtr p1); lo] lo)
     [(1%positive, (TPtr p3)); (2%positive, (TPtr p1)); (3%positive, lo)];
   Entry f_H3_final (Sig [(TPtr p3); (TPtr p1); lo; (TPtr p1)] lo)
     [(1%positive, (TPtr p3)); (2%positive, (TPtr p1)); (3%positive, lo); (4%positive, (TPtr p1))];
   Entry f_H3_init (Sig [(TPtr p3); lo] lo)
     [(1%positive, (TPtr p3)); (2%positive, lo)];
   Entry f_H3_update (Sig [(TPtr p3); (TPtr p0); lo] lo)
     [(1%positive, (TPtr p3)); (2%positive, (TPtr p0)); (3%positive, lo)];
   Entry f_H3_update (Sig [(TPtr p3); (TPtr p1); lo] lo)
     [(1%positive, (TPtr p3)); (2%positive, (TPtr p1)); (3%positive, lo)];
   Entry f_KeccakF1600_FastLoop_Absorb (Sig [(TPtr p1); lo; (TPtr p0); lo] lo)
     [(1%positive, (TPtr p1)); (2%positive, lo); (3%positive, (TPtr p0)); (4%positive, lo); (5%positive, lo); (6%positive, lo); (7%positive, lo); (8%positive, lo); (9%positive, lo); (10%positive, lo); (11%positive, lo); (12%positive, lo); (13%positive, lo); (14%positive, lo); (15%positive, lo); (16%positive, lo); (17%positive, lo); (18%positive, lo); (19%positive, lo); (20%positive, lo); (21%positive, lo); (22%positive, lo); (23%positive, lo); (24%positive, lo); (25%positive, lo); (26%positive, lo); (27%positive, lo); (28%positive, lo); (29%positive, lo); (30%positive, lo); (31%positive, lo); (32%positive, lo); (33%positive, lo); (34%positive, lo); (35%positive, lo); (36%positive, lo); (37%positive, lo); (38%positive, lo); (39%positive, lo); (40%positive, lo); (41%positive, lo); (42%positive, lo); (43%positive, lo); (44%positive, lo); (45%positive, lo); (46%positive, lo); (47%positive, lo); (48%positive, lo); (49%positive, lo); (50%positive, lo); (51%positive, lo); (52%positive, lo); (53%positive, lo); (54%positive, lo); (55%positive, lo); (56%positive, lo); (57%positive, lo); (58%positive, lo); (59%positive, lo); (60%positive, lo); (61%positive, lo); (62%positive, lo); (63%positive, lo); (64%positive, lo); (65%positive, lo); (66%positive, lo); (67%positive, lo); (68%positive, lo); (69%positive, lo); (70%positive, lo); (71%positive, lo); (72%positive, lo); (73%positive, lo); (74%positive, lo); (75%positive, lo); (76%positive, lo); (77%positive, lo); (78%positive, lo); (79%positive, lo); (80%positive, lo); (81%positive, lo); (82%positive, lo); (83%positive, lo); (84%positive, lo); (85%positive, lo); (86%positive, lo); (87%positive, lo); (88%positive, lo); (89%positive, lo); (90%positive, lo); (91%positive, (TPtr p1)); (92%positive, (TPtr p0))];
   Entry f_KeccakF1600_FastLoop_Absorb (Sig [(TPtr p1); lo; (TPtr p1); lo] lo)
     [(1%positive, (TPtr p1)); (2%positive, lo); (3%positive, (TPtr p1)); (4%positive, lo); (5%positive, lo); (6%positive, lo); (7%positive, lo); (8%positive, lo); (9%positive, lo); (10%positive, lo); (11%positive, lo); (12%positive, lo); (13%positive, lo); (14%positive, lo); (15%positive, lo); (16%positive, lo); (17%positive, lo); (18%positive, lo); (19%positive, lo); (20%positive, lo); (21%positive, lo); (22%positive, lo); (23%positive, lo); (24%positive, lo); (25%positive, lo); (26%positive, lo); (27%positive, lo); (28%positive, lo); (29%positive, lo); (30%positive, lo); (31%positive, lo); (32%positive, lo); (33%positive, lo); (34%positive, lo); (35%positive, lo); (36%positive, lo); (37%positive, lo); (38%positive, lo); (39%positive, lo); (40%positive, lo); (41%positive, lo); (42%positive, lo); (43%positive, lo); (44%positive, lo); (45%positive, lo); (46%positive, lo); (47%positive, lo); (48%positive, lo); (49%positive, lo); (50%positive, lo); (51%positive, lo); (52%positive, lo); (53%positive, lo); (54%positive, lo); (55%positive, lo); (56%positive, lo); (57%positive, lo); (58%positive, lo); (59%positive, lo); (60%positive, lo); (61%positive, lo); (62%positive, lo); (63%positive, lo); (64%positive, lo); (65%positive, lo); (66%positive, lo); (67%positive, lo); (68%positive, lo); (69%positive, lo); (70%positive, lo); (71%positive, lo); (72%positive, lo); (73%positive, lo); (74%positive, lo); (75%positive, lo); (76%positive, lo); (77%positive, lo); (78%positive, lo); (79%positive, lo); (80%positive, lo); (81%positive, lo); (82%positive, lo); (83%positive, lo); (84%positive, lo); (85%positive, lo); (86%positive, lo); (87%positive, lo); (88%positive, lo); (89%positive, lo); (90%positive, lo); (91%positive, (TPtr p1)); (92%positive, (TPtr p1))];
   Entry f_KeccakP1600_AddBytes (Sig [(TPtr p1); (TPtr p0); lo; lo] lo)
     [(1%positive, (TPtr p1)); (2%positive, (TPtr p0)); (3%positive, lo); (4%positive, lo); (5%positive, lo); (6%positive, lo); (7%positive, lo); (8%positive, (TPtr p0)); (9%positive, lo)];
   Entry f_KeccakP1600_AddBytes (Sig [(TPtr p1); (TPtr p1); lo; lo] lo)
     [(1%positive, (TPtr p1)); (2%positive, (TPtr p1)); (3%positive, lo); (4%positive, lo); (5%positive, lo); (6%positive, lo); (7%positive, lo); (8%positive, (TPtr p1)); (9%positive, lo)];
   Entry f_KeccakP1600_AddBytesInLane (Sig [(TPtr p1); lo; (TPtr p0); lo; lo] lo)
     [(1%positive, (TPtr p1)); (2%positive, lo); (3%positive, (TPtr p0)); (4%positive, lo); (5%positive, lo); (6%positive, (TPtr p1)); (7%positive, (TPtr p1))];
   Entry f_KeccakP1600_AddBytesInLane (Sig [(TPtr p1); lo; (TPtr p1); lo; lo] lo)
     [(1%positive, (TPtr p1)); (2%positive, lo); (3%positive, (TPtr p1)); (4%positive, lo); (5%positive, lo); (6%positive, (TPtr p1)); (7%positive, (TPtr p1))];
   Entry f_KeccakP1600_AddLanes (Sig [(TPtr p1); (TPtr p0); lo] lo)
     [(1%positive, (TPtr p1)); (2%positive, (TPtr p0)); (3%positive, lo); (4%positive, lo); (5%positive, (TPtr p1)); (6%positive, (TPtr p1)); (7%positive, (TPtr p1)); (8%positive, (TPtr p1)); (9%positive, (TPtr p1)); (10%positive, (TPtr p1)); (11%positive, (TPtr p1)); (12%positive, (TPtr p1)); (13%positive, (TPtr p1)); (14%positive, (TPtr p1)); (15%positive, (TPtr p1)); (16%positive, (TPtr p1)); (17%positive, (TPtr p1)); (18%positive, (TPtr p1)); (19%positive, (TPtr p1))];
   Entry f_KeccakP1600_AddLanes (Sig [(TPtr p1); (TPtr p1); lo] lo)
     [(1%positive, (TPtr p1)); (2%positive, (TPtr p1)); (3%positive, lo); (4%positive, lo); (5%positive, (TPtr p1)); (6%positive, (TPtr p1)); (7%positive, (TPtr p1)); (8%positive, (TPtr p1)); (9%positive, (TPtr p1)); (10%positive, (TPtr p1)); (11%positive, (TPtr p1)); (12%positive, (TPtr p1)); (13%positive, (TPtr p1)); (14%positive, (TPtr p1)); (15%positive, (TPtr p1)); (16%positive, (TPtr p1)); (17%positive, (TPtr p1)); (18%positive, (TPtr p1)); (19%positive, (TPtr p1))];
   Entry f_KeccakP1600_ExtractBytes (Sig [(TPtr p1); (TPtr p1); lo; lo] lo)
     [(1%positive, (TPtr p1)); (2%positive, (TPtr p1)); (3%positive, lo); (4%positive, lo); (5%positive, lo); (6%positive, lo); (7%positive, lo); (8%positive, (TPtr p1)); (9%positive, lo)];
   Entry f_KeccakP1600_ExtractBytesInLane (Sig [(TPtr p1); lo; (TPtr p1); lo; lo] lo)
     [(1%positive, (TPtr p1)); (2%positive, lo); (3%positive, (TPtr p1)); (4%positive, lo); (5%positive, lo); (6%positive, lo); (7%positive, (TPtr p1))];
   Entry f_KeccakP1600_ExtractLanes (Sig [(TPtr p1); (TPtr p1); lo] lo)
     [(1%positive, (TPtr p1)); (2%positive, (TPtr p1)); (3%positive, lo)];
   Entry f_KeccakP1600_Initialize (Sig [(TPtr p1)] lo)
     [(1%positive, (TPtr p1))];
   Entry f_KeccakP1600_Permute_24rounds (Sig [(TPtr p1)] lo)
     [(1%positive, (TPtr p1)); (2%positive, lo); (3%positive, lo); (4%positive, lo); (5%positive, lo); (6%positive, lo); (7%positive, lo); (8%positive, lo); (9%positive, lo); (10%positive, lo); (11%positive, lo); (12%positive, lo); (13%positive, lo); (14%positive, lo); (15%positive, lo); (16%positive, lo); (17%positive, lo); (18%positive, lo); (19%positive, lo); (20%positive, lo); (21%positive, lo); (22%positive, lo); (23%positive, lo); (24%positive, lo); (25%positive, lo); (26%positive, lo); (27%positive, lo); (28%positive, lo); (29%positive, lo); (30%positive, lo); (31%positive, lo); (32%positive, lo); (33%positive, lo); (34%positive, lo); (35%positive, lo); (36%positive, lo); (37%positive, lo); (38%positive, lo); (39%positive, lo); (40%positive, lo); (41%positive, lo); (42%positive, lo); (43%positive, lo); (44%positive, lo); (45%positive, lo); (46%positive, lo); (47%positive, lo); (48%positive, lo); (49%positive, lo); (50%positive, lo); (51%positive, lo); (52%positive, lo); (53%positive, lo); (54%positive, lo); (55%positive, lo); (56%positive, lo); (57%positive, lo); (58%positive, lo); (59%positive, lo); (60%positive, lo); (61%positive, lo); (62%positive, lo); (63%positive, lo); (64%positive, lo); (65%positive, lo); (66%positive, lo); (67%positive, lo); (68%positive, lo); (69%positive, lo); (70%positive, lo); (71%positive, lo); (72%positive, lo); (73%positive, lo); (74%positive, lo); (75%positive, lo); (76%positive, lo); (77%positive, lo); (78%positive, lo); (79%positive, lo); (80%positive, lo); (81%positive, lo); (82%positive, lo); (83%positive, lo); (84%positive, lo); (85%positive, lo); (86%positive, lo); (87%positive, (TPtr p1))];
   Entry f_KeccakP1600times4_AddByte (Sig [(TPtr p1); lo; lo; lo] lo)
     [(1%positive, (TPtr p1)); (2%positive, lo); (3%positive, lo); (4%positive, lo); (5%positive, (TPtr p1))];
   Entry f_KeccakP1600times4_AddBytes (Sig [(TPtr p1); lo; (TPtr p0); lo; lo] lo)
     [(1%positive, (TPtr p1)); (2%positive, lo); (3%positive, (TPtr p0)); (4%positive, lo); (5%positive, lo)];
   Entry f_KeccakP1600times4_AddBytes (Sig [(TPtr p1); lo; (TPtr p1); lo; lo] lo)
     [(1%positive, (TPtr p1)); (2%positive, lo); (3%positive, (TPtr p1)); (4%positive, lo); (5%positive, lo)];
   Entry f_KeccakP1600times4_ExtractBytes (Sig [(TPtr p1); lo; (TPtr p1); lo; lo] lo)
     [(1%positive, (TPtr p1)); (2%positive, lo); (3%positive, (TPtr p1)); (4%positive, lo); (5%positive, lo)];
   Entry f_KeccakP1600times4_InitializeAll (Sig [(TPtr p1)] lo)
     [(1%positive, (TPtr p1)); (2%positive, lo)];
   Entry f_KeccakP1600times4_PermuteAll_24rounds (Sig [(TPtr p1)] lo)
     [(1%positive, (TPtr p1)); (2%positive, lo)];
   Entry f_KeccakP1600times4_StaticInitialize (Sig [] lo)
     [];
   Entry f_KeccakWidth1600_SpongeAbsorb (Sig [(TPtr p2); (TPtr p0); lo] lo)
     [(1%positive, (TPtr p2)); (2%positive, (TPtr p0)); (3%positive, lo); (4%positive, lo); (5%positive, lo); (6%positive, lo); (7%positive, (TPtr p0)); (8%positive, lo); (9%positive, lo); (10%positive, (TPtr p1))];
   Entry f_KeccakWidth1600_SpongeAbsorb (Sig [(TPtr p2); (TPtr p1); lo] lo)
     [(1%positive, (TPtr p2)); (2%positive, (TPtr p1)); (3%positive, lo); (4%positive, lo); (5%positive, lo); (6%positive, lo); (7%positive, (TPtr p1)); (8%positive, lo); (9%positive, lo); (10%positive, (TPtr p1))];
   Entry f_KeccakWidth1600_SpongeAbsorbLastFewBits (Sig [(TPtr p2); lo] lo)
     [(1%positive, (TPtr p2)); (2%positive, lo); (3%positive, lo); (4%positive, (TPtr p1)); (5%positive, (TPtr p1))];
   Entry f_KeccakWidth1600_SpongeInitialize (Sig [(TPtr p2); lo; lo] lo)
     [(1%positive, (TPtr p2)); (2%positive, lo); (3%positive, lo)];
   Entry f_KeccakWidth1600_SpongeSqueeze (Sig [(TPtr p2); (TPtr p1); lo] lo)
     [(1%positive, (TPtr p2)); (2%positive, (TPtr p1)); (3%positive, lo); (4%positive, lo); (5%positive, lo); (6%positive, lo); (7%positive, lo); (8%positive, (TPtr p1)); (9%positive, lo); (10%positive, (TPtr p1))];
   Entry f_KeccakWidth1600times4_SpongeAbsorb (Sig [(TPtr p2); (TPtr p4); lo] lo)
     [(1%positive, (TPtr p2)); (2%positive, (TPtr p4)); (3%positive, lo); (4%positive, lo); (5%positive, lo); (6%positive, lo); (7%positive, (TPtr p4)); (8%positive, lo); (9%positive, lo); (10%positive, lo); (11%positive, (TPtr p4)); (12%positive, lo); (13%positive, (TPtr p4)); (14%positive, (TPtr p1))];
   Entry f_KeccakWidth1600times4_SpongeAbsorb (Sig [(TPtr p2); (TPtr p5); lo] lo)
     [(1%positive, (TPtr p2)); (2%positive, (TPtr p5)); (3%positive, lo); (4%positive, lo); (5%positive, lo); (6%positive, lo); (7%positive, (TPtr p5)); (8%positive, lo); (9%positive, lo); (10%positive, lo); (11%positive, (TPtr p5)); (12%positive, lo); (13%positive, (TPtr p5)); (14%positive, (TPtr p1))];
   Entry f_KeccakWidth1600times4_SpongeAbsorbLastFewBits (Sig [(TPtr p2); lo] lo)
     [(1%positive, (TPtr p2)); (2%positive, lo); (3%positive, lo); (4%positive, lo); (5%positive, lo)];
   Entry f_KeccakWidth1600times4_SpongeInitialize (Sig [(TPtr p2); lo; lo] lo)
     [(1%positive, (TPtr p2)); (2%positive, lo); (3%positive, lo)];
   Entry f_KeccakWidth1600times4_SpongeSqueeze (Sig [(TPtr p2); (TPtr p5); lo] lo)
     [(1%positive, (TPtr p2)); (2%positive, (TPtr p5)); (3%positive, lo); (4%positive, lo); (5%positive, lo); (6%positive, lo); (7%positive, lo); (8%positive, (TPtr p5)); (9%positive, lo); (10%positive, lo); (11%positive, lo); (12%positive, (TPtr p5)); (13%positive, lo); (14%positive, (TPtr p5)); (15%positive, (TPtr p1))];
   Entry f_Keccak_HashFinal (Sig [(TPtr p3); (TPtr p1)] lo)
     [(1%positive, (TPtr p3)); (2%positive, (TPtr p1)); (3%positive, lo); (4%positive, lo); (5%positive, lo)];
   Entry f_Keccak_HashFinaltimes4 (Sig [(TPtr p3); (TPtr p5)] lo)
     [(1%positive, (TPtr p3)); (2%positive, (TPtr p5)); (3%positive, lo); (4%positive, lo); (5%positive, lo)];
   Entry f_Keccak_HashInitialize (Sig [(TPtr p3); lo; lo; lo; lo] lo)
     [(1%positive, (TPtr p3)); (2%positive, lo); (3%positive, lo); (4%positive, lo); (5%positive, lo); (6%positive, lo); (7%positive, lo)];
   Entry f_Keccak_HashInitializetimes4 (Sig [(TPtr p3); lo; lo; lo; lo] lo)
     [(1%positive, (TPtr p3)); (2%positive, lo); (3%positive, lo); (4%positive, lo); (5%positive, lo); (6%positive, lo); (7%positive, lo)];
   Entry f_Keccak_HashSqueeze (Sig [(TPtr p3); (TPtr p1); lo] lo)
     [(1%positive, (TPtr p3)); (2%positive, (TPtr p1)); (3%positive, lo); (4%positive, lo)];
   Entry f_Keccak_HashSqueezetimes4 (Sig [(TPtr p3); (TPtr p5); lo] lo)
     [(1%positive, (TPtr p3)); (2%positive, (TPtr p5)); (3%positive, lo); (4%positive, lo)];
   Entry f_Keccak_HashUpdate (Sig [(TPtr p3); (TPtr p0); lo] lo)
     [(1%positive, (TPtr p3)); (2%positive, (TPtr p0)); (3%positive, lo); (4%positive, lo); (5%positive, lo); (6%positive, lo); (7%positive, lo); (8%positive, lo); (9%positive, lo); (10%positive, (TPtr p1)); (11%positive, lo)];
   Entry f_Keccak_HashUpdate (Sig [(TPtr p3); (TPtr p1); lo] lo)
     [(1%positive, (TPtr p3)); (2%positive, (TPtr p1)); (3%positive, lo); (4%positive, lo); (5%positive, lo); (6%positive, lo); (7%positive, lo); (8%positive, lo); (9%positive, lo); (10%positive, (TPtr p1)); (11%positive, lo)];
   Entry f_Keccak_HashUpdatetimes4 (Sig [(TPtr p3); (TPtr p4); lo] lo)
     [(1%positive, (TPtr p3)); (2%positive, (TPtr p4)); (3%positive, lo); (4%positive, lo)];
   Entry f_Keccak_HashUpdatetimes4 (Sig [(TPtr p3); (TPtr p5); lo] lo)
     [(1%positive, (TPtr p3)); (2%positive, (TPtr p5)); (3%positive, lo); (4%positive, lo)];
   Entry f_NumRec (Sig [lo; (TPtr p1)] lo)
     [(1%positive, lo); (2%positive, (TPtr p1)); (3%positive, lo); (4%positive, lo)];
   Entry f___rorb (Sig [lo; lo] lo)
     [(1%positive, lo); (2%positive, lo)];
   Entry f_add_round_key (Sig [lo; (TPtr p1); (TPtr p1); lo] lo)
     [(1%positive, lo); (2%positive, (TPtr p1)); (3%positive, (TPtr p1)); (4%positive, lo); (5%positive, lo)];
   Entry f_aes128_encrypt_block (Sig [(TPtr p1); (TPtr p0); (TPtr p1)] lo)
     [(1%positive, (TPtr p1)); (2%positive, (TPtr p0)); (3%positive, (TPtr p1)); (4%positive, (TPtr p1)); (5%positive, lo); (6%positive, lo)];
   Entry f_aes128_encrypt_block (Sig [(TPtr p1); (TPtr p1); (TPtr p1)] lo)
     [(1%positive, (TPtr p1)); (2%positive, (TPtr p1)); (3%positive, (TPtr p1)); (4%positive, (TPtr p1)); (5%positive, lo); (6%positive, lo)];
   Entry f_aes128_init_round_keys (Sig [(TPtr p1); (TPtr p0)] lo)
     [(1%positive, (TPtr p1)); (2%positive, (TPtr p0)); (3%positive, lo)];
   Entry f_aes128_init_round_keys (Sig [(TPtr p1); (TPtr p1)] lo)
     [(1%positive, (TPtr p1)); (2%positive, (TPtr p1)); (3%positive, lo)];
   Entry f_aes192_encrypt_block (Sig [(TPtr p1); (TPtr p0); (TPtr p1)] lo)
     [(1%positive, (TPtr p1)); (2%positive, (TPtr p0)); (3%positive, (TPtr p1)); (4%positive, (TPtr p1)); (5%positive, lo); (6%positive, lo)];
   Entry f_aes192_encrypt_block (Sig [(TPtr p1); (TPtr p1); (TPtr p1)] lo)
     [(1%positive, (TPtr p1)); (2%positive, (TPtr p1)); (3%positive, (TPtr p1)); (4%positive, (TPtr p1)); (5%positive, lo); (6%positive, lo)];
   Entry f_aes192_init_round_keys (Sig [(TPtr p1); (TPtr p0)] lo)
     [(1%positive, (TPtr p1)); (2%positive, (TPtr p0)); (3%positive, lo)];
   Entry f_aes192_init_round_keys (Sig [(TPtr p1); (TPtr p1)] lo)
     [(1%positive, (TPtr p1)); (2%positive, (TPtr p1)); (3%positive, lo)];
   Entry f_aes256_encrypt_block (Sig [(TPtr p1); (TPtr p0); (TPtr p1)] lo)
     [(1%positive, (TPtr p1)); (2%positive, (TPtr p0)); (3%positive, (TPtr p1)); (4%positive, (TPtr p1)); (5%positive, lo); (6%positive, lo)];
   Entry f_aes256_encrypt_block (Sig [(TPtr p1); (TPtr p1); (TPtr p1)] lo)
     [(1%positive, (TPtr p1)); (2%positive, (TPtr p1)); (3%positive, (TPtr p1)); (4%positive, (TPtr p1)); (5%positive, lo); (6%positive, lo)];
   Entry f_aes256_init_round_keys (Sig [(TPtr p1); (TPtr p0)] lo)
     [(1%positive, (TPtr p1)); (2%positive, (TPtr p0)); (3%positive, lo)];
   Entry f_aes256_init_round_keys (Sig [(TPtr p1); (TPtr p1)] lo)
     [(1%positive, (TPtr p1)); (2%positive, (TPtr p1)); (3%positive, lo)];
   Entry f_aes_enc_backward_128 (Sig [(TPtr p1); (TPtr p1); lo; lo; (TPtr p0); (TPtr p0); (TPtr p1)] lo)
     [(1%positive, (TPtr p1)); (2%positive, (TPtr p1)); (3%positive, lo); (4%positive, lo); (5%positive, (TPtr p0)); (6%positive, (TPtr p0)); (7%positive, (TPtr p1)); (8%positive, (TPtr p1)); (9%positive, (TPtr p1)); (10%positive, (TPtr p1)); (11%positive, (TPtr p1)); (12%positive, (TPtr p1)); (13%positive, lo); (14%positive, (TPtr p1)); (15%positive, lo); (16%positive, lo); (17%positive, lo); (18%positive, lo); (19%positive, lo); (20%positive, lo); (21%positive, (TPtr p1)); (22%positive, lo); (23%positive, lo); (24%positive, (TPtr p1)); (25%positive, lo); (26%positive, lo); (27%positive, lo); (28%positive, (TPtr p1)); (29%positive, (TPtr p1)); (30%positive, lo); (31%positive, lo); (32%positive, (TPtr p1)); (33%positive, lo); (34%positive, (TPtr p1)); (35%positive, (TPtr p1)); (36%positive, (TPtr p1)); (37%positive, (TPtr p1)); (38%positive, lo); (39%positive, lo); (40%positive, lo); (41%positive, lo); (42%positive, (TPtr p1)); (43%positive, (TPtr p1)); (44%positive, lo); (45%positive, lo); (46%positive, (TPtr p1)); (47%positive, (TPtr p1))];
   Entry f_aes_enc_backward_128 (Sig [(TPtr p1); (TPtr p1); lo; lo; (TPtr p0); (TPtr p1); (TPtr p1)] lo)
     [(1%positive, (TPtr p1)); (2%positive, (TPtr p1)); (3%positive, lo); (4%positive, lo); (5%positive, (TPtr p0)); (6%positive, (TPtr p1)); (7%positive, (TPtr p1)); (8%positive, (TPtr p1)); (9%positive, (TPtr p1)); (10%positive, (TPtr p1)); (11%positive, (TPtr p1)); (12%positive, (TPtr p1)); (13%positive, lo); (14%positive, (TPtr p1)); (15%positive, lo); (16%positive, lo); (17%positive, lo); (18%positive, lo); (19%positive, lo); (20%positive, lo); (21%positive, (TPtr p1)); (22%positive, lo); (23%positive, lo); (24%positive, (TPtr p1)); (25%positive, lo); (26%positive, lo); (27%positive, lo); (28%positive, (TPtr p1)); (29%positive, (TPtr p1)); (30%positive, lo); (31%positive, lo); (32%positive, (TPtr p1)); (33%positive, lo); (34%positive, (TPtr p1)); (35%positive, (TPtr p1)); (36%positive, (TPtr p1)); (37%positive, (TPtr p1)); (38%positive, lo); (39%positive, lo); (40%positive, lo); (41%positive, lo); (42%positive, (TPtr p1)); (43%positive, (TPtr p1)); (44%positive, lo); (45%positive, lo); (46%positive, (TPtr p1)); (47%positive, (TPtr p1))];
   Entry f_aes_enc_backward_128_1 (Sig [(TPtr p1); (TPtr p1); (TPtr p1); (TPtr p1)] lo)
     [(1%positive, (TPtr p1)); (2%positive, (TPtr p1)); (3%positive, (TPtr p1)); (4%positive, (TPtr p1)); (5%positive, lo); (6%positive, lo); (7%positive, lo); (8%positive, lo); (9%positive, lo); (10%positive, lo); (11%positive, lo); (12%positive, lo); (13%positive, lo); (14%positive, lo); (15%positive, (TPtr p1)); (16%positive, (TPtr p1))];
   Entry f_aes_enc_backward_192 (Sig [(TPtr p1); (TPtr p1); lo; lo; (TPtr p0); (TPtr p0); (TPtr p1)] lo)
     [(1%positive, (TPtr p1)); (2%positive, (TPtr p1)); (3%positive, lo); (4%positive, lo); (5%positive, (TPtr p0)); (6%positive, (TPtr p0)); (7%positive, (TPtr p1)); (8%positive, (TPtr p1)); (9%positive, (TPtr p1)); (10%positive, (TPtr p1)); (11%positive, (TPtr p1)); (12%positive, (TPtr p1)); (13%positive, lo); (14%positive, (TPtr p1)); (15%positive, lo); (16%positive, lo); (17%positive, lo); (18%positive, lo); (19%positive, lo); (20%positive, lo); (21%positive, lo); (22%positive, lo); (23%positive, (TPtr p1)); (24%positive, lo); (25%positive, lo); (26%positive, (TPtr p1)); (27%positive, lo); (28%positive, lo); (29%positive, lo); (30%positive, lo); (31%positive, lo); (32%positive, (TPtr p1)); (33%positive, (TPtr p1)); (34%positive, lo); (35%positive, lo); (36%positive, lo); (37%positive, lo); (38%positive, (TPtr p1)); (39%positive, lo); (40%positive, (TPtr p1)); (41%positive, (TPtr p1)); (42%positive, (TPtr p1)); (43%positive, (TPtr p1)); (44%positive, lo); (45%positive, lo); (46%positive, lo); (47%positive, lo); (48%positive, lo); (49%positive, lo); (50%positive, lo); (51%positive, lo); (52%positive, (TPtr p1)); (53%positive, (TPtr p1)); (54%positive, lo); (55%positive, lo); (56%positive, lo); (57%positive, lo); (58%positive, (TPtr p1)); (59%positive, (TPtr p1))];
   Entry f_aes_enc_backward_192 (Sig [(TPtr p1); (TPtr p1); lo; lo; (TPtr p0); (TPtr p1); (TPtr p1)] lo)
     [(1%positive, (TPtr p1)); (2%positive, (TPtr p1)); (3%positive, lo); (4%positive, lo); (5%positive, (TPtr p0)); (6%positive, (TPtr p1)); (7%positive, (TPtr p1)); (8%positive, (TPtr p1)); (9%positive, (TPtr p1)); (10%positive, (TPtr p1)); (11%positive, (TPtr p1)); (12%positive, (TPtr p1)); (13%positive, lo); (14%positive, (TPtr p1)); (15%positive, lo); (16%positive, lo); (17%positive, lo); (18%positive, lo); (19%positive, lo); (20%positive, lo); (21%positive, lo); (22%positive, lo); (23%positive, (TPtr p1)); (24%positive, lo); (25%positive, lo); (26%positive, (TPtr p1)); (27%positive, lo); (28%positive, lo); (29%positive, lo); (30%positive, lo); (31%positive, lo); (32%positive, (TPtr p1)); (33%positive, (TPtr p1)); (34%positive, lo); (35%positive, lo); (36%positive, lo); (37%positive, lo); (38%positive, (TPtr p1)); (39%positive, lo); (40%positive, (TPtr p1)); (41%positive, (TPtr p1)); (42%positive, (TPtr p1)); (43%positive, (TPtr p1)); (44%positive, lo); (45%positive, lo); (46%positive, lo); (47%positive, lo); (48%positive, lo); (49%positive, lo); (50%positive, lo); (51%positive, lo); (52%positive, (TPtr p1)); (53%positive, (TPtr p1)); (54%positive, lo); (55%positive, lo); (56%positive, lo); (57%positive, lo); (58%positive, (TPtr p1)); (59%positive, (TPtr p1))];
   Entry f_aes_enc_backward_192_1 (Sig [(TPtr p1); (TPtr p1); lo; lo; (TPtr p1); (TPtr p1)] lo)
     [(1%positive, (TPtr p1)); (2%positive, (TPtr p1)); (3%positive, lo); (4%positive, lo); (5%positive, (TPtr p1)); (6%positive, (TPtr p1)); (7%positive, lo); (8%positive, lo); (9%positive, lo); (10%positive, lo); (11%positive, lo); (12%positive, lo); (13%positive, lo); (14%positive, lo); (15%positive, lo); (16%positive, lo); (17%positive, (TPtr p1)); (18%positive, (TPtr p1))];
   Entry f_aes_enc_backward_256 (Sig [(TPtr p1); (TPtr p1); lo; lo; (TPtr p0); (TPtr p0); (TPtr p1)] lo)
     [(1%positive, (TPtr p1)); (2%positive, (TPtr p1)); (3%positive, lo); (4%positive, lo); (5%positive, (TPtr p0)); (6%positive, (TPtr p0)); (7%positive, (TPtr p1)); (8%positive, (TPtr p1)); (9%positive, (TPtr p1)); (10%positive, (TPtr p1)); (11%positive, (TPtr p1)); (12%positive, (TPtr p1)); (13%positive, lo); (14%positive, (TPtr p1)); (15%positive, lo); (16%positive, lo); (17%positive, lo); (18%positive, lo); (19%positive, lo); (20%positive, lo); (21%positive, lo); (22%positive, lo); (23%positive, (TPtr p1)); (24%positive, lo); (25%positive, lo); (26%positive, (TPtr p1)); (27%positive, lo); (28%positive, lo); (29%positive, lo); (30%positive, lo); (31%positive, lo); (32%positive, (TPtr p1)); (33%positive, (TPtr p1)); (34%positive, lo); (35%positive, lo); (36%positive, lo); (37%positive, lo); (38%positive, (TPtr p1)); (39%positive, lo); (40%positive, (TPtr p1)); (41%positive, (TPtr p1)); (42%positive, (TPtr p1)); (43%positive, (TPtr p1)); (44%positive, lo); (45%positive, lo); (46%positive, lo); (47%positive, lo); (48%positive, lo); (49%positive, lo); (50%positive, lo); (51%positive, lo); (52%positive, (TPtr p1)); (53%positive, (TPtr p1)); (54%positive, lo); (55%positive, lo); (56%positive, lo); (57%positive, lo); (58%positive, (TPtr p1)); (59%positive, (TPtr p1))];
   Entry f_aes_enc_backward_256 (Sig [(TPtr p1); (TPtr p1); lo; lo; (TPtr p0); (TPtr p1); (TPtr p1)] lo)
     [(1%positive, (TPtr p1)); (2%positive, (TPtr p1)); (3%positive, lo); (4%positive, lo); (5%positive, (TPtr p0)); (6%positive, (TPtr p1)); (7%positive, (TPtr p1)); (8%positive, (TPtr p1)); (9%positive, (TPtr p1)); (10%positive, (TPtr p1)); (11%positive, (TPtr p1)); (12%positive, (TPtr p1)); (13%positive, lo); (14%positive, (TPtr p1)); (15%positive, lo); (16%positive, lo); (17%positive, lo); (18%positive, lo); (19%positive, lo); (20%positive, lo); (21%positive, lo); (22%positive, lo); (23%positive, (TPtr p1)); (24%positive, lo); (25%positive, lo); (26%positive, (TPtr p1)); (27%positive, lo); (28%positive, lo); (29%positive, lo); (30%positive, lo); (31%positive, lo); (32%positive, (TPtr p1)); (33%positive, (TPtr p1)); (34%positive, lo); (35%positive, lo); (36%positive, lo); (37%positive, lo); (38%positive, (TPtr p1)); (39%positive, lo); (40%positive, (TPtr p1)); (41%positive, (TPtr p1)); (42%positive, (TPtr p1)); (43%positive, (TPtr p1)); (44%positive, lo); (45%positive, lo); (46%positive, lo); (47%positive, lo); (48%positive, lo); (49%positive, lo); (50%positive, lo); (51%positive, lo); (52%positive, (TPtr p1)); (53%positive, (TPtr p1)); (54%positive, lo); (55%positive, lo); (56%positive, lo); (57%positive, lo); (58%positive, (TPtr p1)); (59%positive, (TPtr p1))];
   Entry f_aes_enc_backward_256_1 (Sig [(TPtr p1); (TPtr p1); lo; lo; (TPtr p1); (TPtr p1)] lo)
     [(1%positive, (TPtr p1)); (2%positive, (TPtr p1)); (3%positive, lo); (4%positive, lo); (5%positive, (TPtr p1)); (6%positive, (TPtr p1)); (7%positive, lo); (8%positive, lo); (9%positive, lo); (10%positive, lo); (11%positive, lo); (12%positive, lo); (13%positive, lo); (14%positive, lo); (15%positive, lo); (16%positive, lo); (17%positive, (TPtr p1)); (18%positive, (TPtr p1))];
   Entry f_aes_enc_constraints_Mkey_0_128 (Sig [(TPtr p0); (TPtr p1); (TPtr p1); (TPtr p1); (TPtr p1); (TPtr p1); (TPtr p6); (TPtr p6)] lo)
     [(1%positive, (TPtr p0)); (2%positive, (TPtr p1)); (3%positive, (TPtr p1)); (4%positive, (TPtr p1)); (5%positive, (TPtr p1)); (6%positive, (TPtr p1)); (7%positive, (TPtr p6)); (8%positive, (TPtr p6)); (9%positive, (TPtr p1)); (10%positive, (TPtr p1)); (11%positive, (TPtr p1)); (12%positive, (TPtr p1)); (13%positive, lo); (14%positive, (TPtr p1)); (15%positive, (TPtr p1)); (16%positive, (TPtr p1)); (17%positive, (TPtr p1)); (18%positive, lo); (19%positive, lo); (20%positive, (TPtr p1)); (21%positive, (TPtr p1)); (22%positive, (TPtr p1)); (23%positive, lo); (24%positive, lo); (25%positive, (TPtr p1)); (26%positive, (TPtr p1)); (27%positive, (TPtr p1)); (28%positive, lo); (29%positive, lo)];
   Entry f_aes_enc_constraints_Mkey_0_192 (Sig [(TPtr p0); (TPtr p1); (TPtr p1); (TPtr p1); (TPtr p1); (TPtr p1); (TPtr p6); (TPtr p6)] lo)
     [(1%positive, (TPtr p0)); (2%positive, (TPtr p1)); (3%positive, (TPtr p1)); (4%positive, (TPtr p1)); (5%positive, (TPtr p1)); (6%positive, (TPtr p1)); (7%positive, (TPtr p6)); (8%positive, (TPtr p6)); (9%positive, (TPtr p1)); (10%positive, (TPtr p1)); (11%positive, (TPtr p1)); (12%positive, (TPtr p1)); (13%positive, lo); (14%positive, (TPtr p1)); (15%positive, (TPtr p1)); (16%positive, (TPtr p1)); (17%positive, (TPtr p1)); (18%positive, lo); (19%positive, lo); (20%positive, lo); (21%positive, lo); (22%positive, (TPtr p1)); (23%positive, (TPtr p1)); (24%positive, (TPtr p1)); (25%positive, lo); (26%positive, lo); (27%positive, lo); (28%positive, lo); (29%positive, (TPtr p1)); (30%positive, (TPtr p1)); (31%positive, (TPtr p1)); (32%positive, lo); (33%positive, lo); (34%positive, lo); (35%positive, lo)];
   Entry f_aes_enc_constraints_Mkey_0_256 (Sig [(TPtr p0); (TPtr p1); (TPtr p1); (TPtr p1); (TPtr p1); (TPtr p1); (TPtr p6); (TPtr p6)] lo)
     [(1%positive, (TPtr p0)); (2%positive, (TPtr p1)); (3%positive, (TPtr p1)); (4%positive, (TPtr p1)); (5%positive, (TPtr p1)); (6%positive, (TPtr p1)); (7%positive, (TPtr p6)); (8%positive, (TPtr p6)); (9%positive, (TPtr p1)); (10%positive, (TPtr p1)); (11%positive, (TPtr p1)); (12%positive, (TPtr p1)); (13%positive, lo); (14%positive, (TPtr p1)); (15%positive, (TPtr p1)); (16%positive, (TPtr p1)); (17%positive, (TPtr p1)); (18%positive, lo); (19%positive, lo); (20%positive, lo); (21%positive, lo); (22%positive, (TPtr p1)); (23%positive, (TPtr p1)); (24%positive, (TPtr p1)); (25%positive, lo); (26%positive, lo); (27%positive, lo); (28%positive, lo); (29%positive, (TPtr p1)); (30%positive, (TPtr p1)); (31%positive, (TPtr p1)); (32%positive, lo); (33%positive, lo); (34%positive, lo); (35%positive, lo)];
   Entry f_aes_enc_constraints_Mkey_1_128 (Sig [(TPtr p0); (TPtr p0); (TPtr p1); (TPtr p1); (TPtr p0); (TPtr p6)] lo)
     [(1%positive, (TPtr p0)); (2%positive, (TPtr p0)); (3%positive, (TPtr p1)); (4%positive, (TPtr p1)); (5%positive, (TPtr p0)); (6%positive, (TPtr p6)); (7%positive, (TPtr p1)); (8%positive, (TPtr p1)); (9%positive, (TPtr p1)); (10%positive, (TPtr p1)); (11%positive, (TPtr p1)); (12%positive, lo); (13%positive, (TPtr p1)); (14%positive, (TPtr p1)); (15%positive, lo); (16%positive, lo)];
   Entry f_aes_enc_constraints_Mkey_1_192 (Sig [(TPtr p0); (TPtr p0); (TPtr p1); (TPtr p1); (TPtr p0); (TPtr p6)] lo)
     [(1%positive, (TPtr p0)); (2%positive, (TPtr p0)); (3%positive, (TPtr p1)); (4%positive, (TPtr p1)); (5%positive, (TPtr p0)); (6%positive, (TPtr p6)); (7%positive, (TPtr p1)); (8%positive, (TPtr p1)); (9%positive, (TPtr p1)); (10%positive, (TPtr p1)); (11%positive, (TPtr p1)); (12%positive, lo); (13%positive, (TPtr p1)); (14%positive, (TPtr p1)); (15%positive, lo); (16%positive, lo); (17%positive, lo); (18%positive, lo)];
   Entry f_aes_enc_constraints_Mkey_1_256 (Sig [(TPtr p0); (TPtr p0); (TPtr p1); (TPtr p1); (TPtr p0); (TPtr p6)] lo)
     [(1%positive, (TPtr p0)); (2%positive, (TPtr p0)); (3%positive, (TPtr p1)); (4%positive, (TPtr p1)); (5%positive, (TPtr p0)); (6%positive, (TPtr p6)); (7%positive, (TPtr p1)); (8%positive, (TPtr p1)); (9%positive, (TPtr p1)); (10%positive, (TPtr p1)); (11%positive, (TPtr p1)); (12%positive, lo); (13%positive, (TPtr p1)); (14%positive, (TPtr p1)); (15%positive, lo); (16%positive, lo); (17%positive, lo); (18%positive, lo)];
   Entry f_aes_enc_forward_128 (Sig [(TPtr p1); (TPtr p1); (TPtr p0); lo; lo; (TPtr p0); (TPtr p1)] lo)
     [(1%positive, (TPtr p1)); (2%positive, (TPtr p1)); (3%positive, (TPtr p0)); (4%positive, lo); (5%positive, lo); (6%positive, (TPtr p0)); (7%positive, (TPtr p1)); (8%positive, (TPtr p1)); (9%positive, (TPtr p1)); (10%positive, (TPtr p1)); (11%positive, (TPtr p1)); (12%positive, (TPtr p1)); (13%positive, lo); (14%positive, (TPtr p1)); (15%positive, lo); (16%positive, lo); (17%positive, lo); (18%positive, (TPtr p1)); (19%positive, lo); (20%positive, (TPtr p1)); (21%positive, lo); (22%positive, lo); (23%positive, lo); (24%positive, (TPtr p1)); (25%positive, (TPtr p1)); (26%positive, (TPtr p1)); (27%positive, lo); (28%positive, lo); (29%positive, (TPtr p1)); (30%positive, (TPtr p1)); (31%positive, lo); (32%positive, lo); (33%positive, lo); (34%positive, lo); (35%positive, lo); (36%positive, (TPtr p1)); (37%positive, (TPtr p1)); (38%positive, lo); (39%positive, (TPtr p1)); (40%positive, (TPtr p1)); (41%positive, (TPtr p1)); (42%positive, (TPtr p1)); (43%positive, (TPtr p1)); (44%positive, (TPtr p1)); (45%positive, lo); (46%positive, lo); (47%positive, (TPtr p1)); (48%positive, (TPtr p1)); (49%positive, (TPtr p1)); (50%positive, lo); (51%positive, lo); (52%positive, (TPtr p1)); (53%positive, (TPtr p1)); (54%positive, (TPtr p1)); (55%positive, lo); (56%positive, lo); (57%positive, (TPtr p1)); (58%positive, (TPtr p1)); (59%positive, (TPtr p1)); (60%positive, lo); (61%positive, lo); (62%positive, (TPtr p1)); (63%positive, (TPtr p1)); (64%positive, lo); (65%positive, lo); (66%positive, (TPtr p1)); (67%positive, (TPtr p1)); (68%positive, (TPtr p1)); (69%positive, lo); (70%positive, lo); (71%positive, (TPtr p1)); (72%positive, (TPtr p1)); (73%positive, (TPtr p1)); (74%positive, lo); (75%positive, lo); (76%positive, (TPtr p1)); (77%positive, (TPtr p1)); (78%positive, (TPtr p1)); (79%positive, lo); (80%positive, lo); (81%positive, (TPtr p1)); (82%positive, (TPtr p1)); (83%positive, lo); (84%positive, lo); (85%positive, (TPtr p1)); (86%positive, (TPtr p1)); (87%positive, (TPtr p1)); (88%positive, lo); (89%positive, lo); (90%positive, (TPtr p1)); (91%positive, (TPtr p1)); (92%positive, (TPtr p1)); (93%positive, lo); (94%positive, lo); (95%positive, (TPtr p1)); (96%positive, (TPtr p1)); (97%positive, (TPtr p1)); (98%positive, lo); (99%positive, lo); (100%positive, (TPtr p1)); (101%positive, (TPtr p1)); (102%positive, (TPtr p1)); (103%positive, lo); (104%positive, lo); (105%positive, (TPtr p1)); (106%positive, (TPtr p1)); (107%positive, (TPtr p1)); (108%positive, lo); (109%positive, lo); (110%positive, (TPtr p1)); (111%positive, (TPtr p1)); (112%positive, (TPtr p1)); (113%positive, lo); (114%positive, lo); (115%positive, (TPtr p1)); (116%positive, (TPtr p1)); (117%positive, (TPtr p1)); (118%positive, lo); (119%positive, lo)];
   Entry f_aes_enc_forward_128_1 (Sig [(TPtr p1); (TPtr p1); (TPtr p0); (TPtr p1)] lo)
     [(1%positive, (TPtr p1)); (2%positive, (TPtr p1)); (3%positive, (TPtr p0)); (4%positive, (TPtr p1)); (5%positive, lo); (6%positive, lo); (7%positive, (TPtr p1)); (8%positive, (TPtr p1)); (9%positive, (TPtr p1)); (10%positive, lo); (11%positive, lo); (12%positive, (TPtr p1)); (13%positive, (TPtr p1)); (14%positive, lo); (15%positive, lo); (16%positive, lo); (17%positive, lo); (18%positive, lo); (19%positive, (TPtr p1)); (20%positive, (TPtr p1)); (21%positive, lo); (22%positive, (TPtr p1)); (23%positive, (TPtr p1)); (24%positive, (TPtr p1)); (25%positive, (TPtr p1)); (26%positive, (TPtr p1)); (27%positive, (TPtr p1)); (28%positive, lo); (29%positive, lo); (30%positive, (TPtr p1)); (31%positive, (TPtr p1)); (32%positive, (TPtr p1)); (33%positive, lo); (34%positive, lo); (35%positive, (TPtr p1)); (36%positive, (TPtr p1)); (37%positive, (TPtr p1)); (38%positive, lo); (39%positive, lo); (40%positive, (TPtr p1)); (41%positive, (TPtr p1)); (42%positive, (TPtr p1)); (43%positive, lo); (44%positive, lo); (45%positive, (TPtr p1)); (46%positive, (TPtr p1)); (47%positive, lo); (48%positive, lo); (49%positive, (TPtr p1)); (50%positive, (TPtr p1)); (51%positive, (TPtr p1)); (52%positive, lo); (53%positive, lo); (54%positive, (TPtr p1)); (55%positive, (TPtr p1)); (56%positive, (TPtr p1)); (57%positive, lo); (58%positive, lo); (59%positive, (TPtr p1)); (60%positive, (TPtr p1)); (61%positive, (TPtr p1)); (62%positive, lo); (63%positive, lo); (64%positive, (TPtr p1)); (65%positive, (TPtr p1)); (66%positive, lo); (67%positive, lo); (68%positive, (TPtr p1)); (69%positive, (TPtr p1)); (70%positive, (TPtr p1)); (71%positive, lo); (72%positive, lo); (73%positive, (TPtr p1)); (74%positive, (TPtr p1)); (75%positive, (TPtr p1)); (76%positive, lo); (77%positive, lo); (78%positive, (TPtr p1)); (79%positive, (TPtr p1)); (80%positive, (TPtr p1)); (81%positive, lo); (82%positive, lo); (83%positive, (TPtr p1)); (84%positive, (TPtr p1)); (85%positive, (TPtr p1)); (86%positive, lo); (87%positive, lo); (88%positive, (TPtr p1)); (89%positive, (TPtr p1)); (90%positive, (TPtr p1)); (91%positive, lo); (92%positive, lo); (93%positive, (TPtr p1)); (94%positive, (TPtr p1)); (95%positive, (TPtr p1)); (96%positive, lo); (97%positive, lo); (98%positive, (TPtr p1)); (99%positive, (TPtr p1)); (100%positive, (TPtr p1)); (101%positive, lo); (102%positive, lo)];
   Entry f_aes_enc_forward_192 (Sig [(TPtr p1); (TPtr p1); (TPtr p0); lo; lo; (TPtr p0); (TPtr p1)] lo)
     [(1%positive, (TPtr p1)); (2%positive, (TPtr p1)); (3%positive, (TPtr p0)); (4%positive, lo); (5%positive, lo); (6%positive, (TPtr p0)); (7%positive, (TPtr p1)); (8%positive, (TPtr p1)); (9%positive, (TPtr p1)); (10%positive, (TPtr p1)); (11%positive, (TPtr p1)); (12%positive, (TPtr p1)); (13%positive, lo); (14%positive, (TPtr p1)); (15%positive, lo); (16%positive, lo); (17%positive, lo); (18%positive, lo); (19%positive, lo); (20%positive, (TPtr p1)); (21%positive, lo); (22%positive, (TPtr p1)); (23%positive, lo); (24%positive, lo); (25%positive, lo); (26%positive, lo); (27%positive, lo); (28%positive, (TPtr p1)); (29%positive, (TPtr p1)); (30%positive, (TPtr p1)); (31%positive, lo); (32%positive, lo); (33%positive, lo); (34%positive, lo); (35%positive, (TPtr p1)); (36%positive, (TPtr p1)); (37%positive, lo); (38%positive, lo); (39%positive, lo); (40%positive, lo); (41%positive, lo); (42%positive, (TPtr p1)); (43%positive, (TPtr p1)); (44%positive, lo); (45%positive, (TPtr p1)); (46%positive, (TPtr p1)); (47%positive, (TPtr p1)); (48%positive, (TPtr p1)); (49%positive, (TPtr p1)); (50%positive, (TPtr p1)); (51%positive, lo); (52%positive, lo); (53%positive, lo); (54%positive, lo); (55%positive, (TPtr p1)); (56%positive, (TPtr p1)); (57%positive, (TPtr p1)); (58%positive, lo); (59%positive, lo); (60%positive, lo); (61%positive, lo); (62%positive, (TPtr p1)); (63%positive, (TPtr p1)); (64%positive, (TPtr p1)); (65%positive, lo); (66%positive, lo); (67%positive, lo); (68%positive, lo); (69%positive, (TPtr p1)); (70%positive, (TPtr p1)); (71%positive, (TPtr p1)); (72%positive, lo); (73%positive, lo); (74%positive, lo); (75%positive, lo); (76%positive, (TPtr p1)); (77%positive, (TPtr p1)); (78%positive, lo); (79%positive, lo); (80%positive, lo); (81%positive, lo); (82%positive, (TPtr p1)); (83%positive, (TPtr p1)); (84%positive, (TPtr p1)); (85%positive, lo); (86%positive, lo); (87%positive, lo); (88%positive, lo); (89%positive, (TPtr p1)); (90%positive, (TPtr p1)); (91%positive, (TPtr p1)); (92%positive, lo); (93%positive, lo); (94%positive, lo); (95%positive, lo); (96%positive, (TPtr p1)); (97%positive, (TPtr p1)); (98%positive, (TPtr p1)); (99%positive, lo); (100%positive, lo); (101%positive, lo); (102%positive, lo); (103%positive, (TPtr p1)); (104%positive, (TPtr p1)); (105%positive, lo); (106%positive, lo); (107%positive, lo); (108%positive, lo); (109%positive, (TPtr p1)); (110%positive, (TPtr p1)); (111%positive, (TPtr p1)); (112%positive, lo); (113%positive, lo); (114%positive, lo); (115%positive, lo); (116%positive, (TPtr p1)); (117%positive, (TPtr p1)); (118%positive, (TPtr p1)); (119%positive, lo); (120%positive, lo); (121%positive, lo); (122%positive, lo); (123%positive, (TPtr p1)); (124%positive, (TPtr p1)); (125%positive, (TPtr p1)); (126%positive, lo); (127%positive, lo); (128%positive, lo); (129%positive, lo); (130%positive, (TPtr p1)); (131%positive, (TPtr p1)); (132%positive, (TPtr p1)); (133%positive, lo); (134%positive, lo); (135%positive, lo); (136%positive, lo); (137%positive, (TPtr p1)); (138%positive, (TPtr p1)); (139%positive, (TPtr p1)); (140%positive, lo); (141%positive, lo); (142%positive, lo); (143%positive, lo); (144%positive, (TPtr p1)); (145%positive, (TPtr p1)); (146%positive, (TPtr p1)); (147%positive, lo); (148%positive, lo); (149%positive, lo); (150%positive, lo); (151%positive, (TPtr p1)); (152%positive, (TPtr p1)); (153%positive, (TPtr p1)); (154%positive, lo); (155%positive, lo); (156%positive, lo); (157%positive, lo)];
   Entry f_aes_enc_forward_192_1 (Sig [(TPtr p1); (TPtr p1); (TPtr p0); lo; lo; (TPtr p1)] lo)
     [(1%positive, (TPtr p1)); (2%positive, (TPtr p1)); (3%positive, (TPtr p0)); (4%positive, lo); (5%positive, lo); (6%positive, (TPtr p1)); (7%positive, lo); (8%positive, lo); (9%positive, (TPtr p1)); (10%positive, (TPtr p1)); (11%positive, (TPtr p1)); (12%positive, lo); (13%positive, lo); (14%positive, lo); (15%positive, lo); (16%positive, (TPtr p1)); (17%positive, (TPtr p1)); (18%positive, lo); (19%positive, lo); (20%positive, lo); (21%positive, lo); (22%positive, lo); (23%positive, (TPtr p1)); (24%positive, (TPtr p1)); (25%positive, lo); (26%positive, (TPtr p1)); (27%positive, (TPtr p1)); (28%positive, (TPtr p1)); (29%positive, (TPtr p1)); (30%positive, (TPtr p1)); (31%positive, (TPtr p1)); (32%positive, lo); (33%positive, lo); (34%positive, lo); (35%positive, lo); (36%positive, (TPtr p1)); (37%positive, (TPtr p1)); (38%positive, (TPtr p1)); (39%positive, lo); (40%positive, lo); (41%positive, lo); (42%positive, lo); (43%positive, (TPtr p1)); (44%positive, (TPtr p1)); (45%positive, (TPtr p1)); (46%positive, lo); (47%positive, lo); (48%positive, lo); (49%positive, lo); (50%positive, (TPtr p1)); (51%positive, (TPtr p1)); (52%positive, (TPtr p1)); (53%positive, lo); (54%positive, lo); (55%positive, lo); (56%positive, lo); (57%positive, (TPtr p1)); (58%positive, (TPtr p1)); (59%positive, lo); (60%positive, lo); (61%positive, lo); (62%positive, lo); (63%positive, (TPtr p1)); (64%positive, (TPtr p1)); (65%positive, (TPtr p1)); (66%positive, lo); (67%positive, lo); (68%positive, lo); (69%positive, lo); (70%positive, (TPtr p1)); (71%positive, (TPtr p1)); (72%positive, (TPtr p1)); (73%positive, lo); (74%positive, lo); (75%positive, lo); (76%positive, lo); (77%positive, (TPtr p1)); (78%positive, (TPtr p1)); (79%positive, (TPtr p1)); (80%positive, lo); (81%positive, lo); (82%positive, lo); (83%positive, lo); (84%positive, (TPtr p1)); (85%positive, (TPtr p1)); (86%positive, lo); (87%positive, lo); (88%positive, lo); (89%positive, lo); (90%positive, (TPtr p1)); (91%positive, (TPtr p1)); (92%positive, (TPtr p1)); (93%positive, lo); (94%positive, lo); (95%positive, lo); (96%positive, lo); (97%positive, (TPtr p1)); (98%positive, (TPtr p1)); (99%positive, (TPtr p1)); (100%positive, lo); (101%positive, lo); (102%positive, lo); (103%positive, lo); (104%positive, (TPtr p1)); (105%positive, (TPtr p1)); (106%positive, (TPtr p1)); (107%positive, lo); (108%positive, lo); (109%positive, lo); (110%positive, lo); (111%positive, (TPtr p1)); (112%positive, (TPtr p1)); (113%positive, (TPtr p1)); (114%positive, lo); (115%positive, lo); (116%positive, lo); (117%positive, lo); (118%positive, (TPtr p1)); (119%positive, (TPtr p1)); (120%positive, (TPtr p1)); (121%positive, lo); (122%positive, lo); (123%positive, lo); (124%positive, lo); (125%positive, (TPtr p1)); (126%positive, (TPtr p1)); (127%positive, (TPtr p1)); (128%positive, lo); (129%positive, lo); (130%positive, lo); (131%positive, lo); (132%positive, (TPtr p1)); (133%positive, (TPtr p1)); (134%positive, (TPtr p1)); (135%positive, lo); (136%positive, lo); (137%positive, lo); (138%positive, lo)];
   Entry f_aes_enc_forward_256 (Sig [(TPtr p1); (TPtr p1); (TPtr p0); lo; lo; (TPtr p0); (TPtr p1)] lo)
     [(1%positive, (TPtr p1)); (2%positive, (TPtr p1)); (3%positive, (TPtr p0)); (4%positive, lo); (5%positive, lo); (6%positive, (TPtr p0)); (7%positive, (TPtr p1)); (8%positive, (TPtr p1)); (9%positive, (TPtr p1)); (10%positive, (TPtr p1)); (11%positive, (TPtr p1)); (12%positive, (TPtr p1)); (13%positive, lo); (14%positive, (TPtr p1)); (15%positive, lo); (16%positive, lo); (17%positive, lo); (18%positive, lo); (19%positive, lo); (20%positive, (TPtr p1)); (21%positive, lo); (22%positive, (TPtr p1)); (23%positive, lo); (24%positive, lo); (25%positive, lo); (26%positive, lo); (27%positive, lo); (28%positive, (TPtr p1)); (29%positive, (TPtr p1)); (30%positive, (TPtr p1)); (31%positive, lo); (32%positive, lo); (33%positive, lo); (34%positive, lo); (35%positive, (TPtr p1)); (36%positive, (TPtr p1)); (37%positive, lo); (38%positive, lo); (39%positive, lo); (40%positive, lo); (41%positive, lo); (42%positive, (TPtr p1)); (43%positive, (TPtr p1)); (44%positive, lo); (45%positive, (TPtr p1)); (46%positive, (TPtr p1)); (47%positive, (TPtr p1)); (48%positive, (TPtr p1)); (49%positive, (TPtr p1)); (50%positive, (TPtr p1)); (51%positive, lo); (52%positive, lo); (53%positive, lo); (54%positive, lo); (55%positive, (TPtr p1)); (56%positive, (TPtr p1)); (57%positive, (TPtr p1)); (58%positive, lo); (59%positive, lo); (60%positive, lo); (61%positive, lo); (62%positive, (TPtr p1)); (63%positive, (TPtr p1)); (64%positive, (TPtr p1)); (65%positive, lo); (66%positive, lo); (67%positive, lo); (68%positive, lo); (69%positive, (TPtr p1)); (70%positive, (TPtr p1)); (71%positive, (TPtr p1)); (72%positive, lo); (73%positive, lo); (74%positive, lo); (75%positive, lo); (76%positive, (TPtr p1)); (77%positive, (TPtr p1)); (78%positive, lo); (79%positive, lo); (80%positive, lo); (81%positive, lo); (82%positive, (TPtr p1)); (83%positive, (TPtr p1)); (84%positive, (TPtr p1)); (85%positive, lo); (86%positive, lo); (87%positive, lo); (88%positive, lo); (89%positive, (TPtr p1)); (90%positive, (TPtr p1)); (91%positive, (TPtr p1)); (92%positive, lo); (93%positive, lo); (94%positive, lo); (95%positive, lo); (96%positive, (TPtr p1)); (97%positive, (TPtr p1)); (98%positive, (TPtr p1)); (99%positive, lo); (100%positive, lo); (101%positive, lo); (102%positive, lo); (103%positive, (TPtr p1)); (104%positive, (TPtr p1)); (105%positive, lo); (106%positive, lo); (107%positive, lo); (108%positive, lo); (109%positive, (TPtr p1)); (110%positive, (TPtr p1)); (111%positive, (TPtr p1)); (112%positive, lo); (113%positive, lo); (114%positive, lo); (115%positive, lo); (116%positive, (TPtr p1)); (117%positive, (TPtr p1)); (118%positive, (TPtr p1)); (119%positive, lo); (120%positive, lo); (121%positive, lo); (122%positive, lo); (123%positive, (TPtr p1)); (124%positive, (TPtr p1)); (125%positive, (TPtr p1)); (126%positive, lo); (127%positive, lo); (128%positive, lo); (129%positive, lo); (130%positive, (TPtr p1)); (131%positive, (TPtr p1)); (132%positive, (TPtr p1)); (133%positive, lo); (134%positive, lo); (135%positive, lo); (136%positive, lo); (137%positive, (TPtr p1)); (138%positive, (TPtr p1)); (139%positive, (TPtr p1)); (140%positive, lo); (141%positive, lo); (142%positive, lo); (143%positive, lo); (144%positive, (TPtr p1)); (145%positive, (TPtr p1)); (146%positive, (TPtr p1)); (147%positive, lo); (148%positive, lo); (149%positive, lo); (150%positive, lo); (151%positive, (TPtr p1)); (152%positive, (TPtr p1)); (153%positive, (TPtr p1)); (154%positive, lo); (155%positive, lo); (156%positive, lo); (157%positive, lo)];
   Entry f_aes_enc_forward_256_1 (Sig [(TPtr p1); (TPtr p1); (TPtr p0); lo; lo; (TPtr p1)] lo)
     [(1%positive, (TPtr p1)); (2%positive, (TPtr p1)); (3%positive, (TPtr p0)); (4%positive, lo); (5%positive, lo); (6%positive, (TPtr p1)); (7%positive, lo); (8%positive, lo); (9%positive, (TPtr p1)); (10%positive, (TPtr p1)); (11%positive, (TPtr p1)); (12%positive, lo); (13%positive, lo); (14%positive, lo); (15%positive, lo); (16%positive, (TPtr p1)); (17%positive, (TPtr p1)); (18%positive, lo); (19%positive, lo); (20%positive, lo); (21%positive, lo); (22%positive, lo); (23%positive, (TPtr p1)); (24%positive, (TPtr p1)); (25%positive, lo); (26%positive, (TPtr p1)); (27%positive, (TPtr p1)); (28%positive, (TPtr p1)); (29%positive, (TPtr p1)); (30%positive, (TPtr p1)); (31%positive, (TPtr p1)); (32%positive, lo); (33%positive, lo); (34%positive, lo); (35%positive, lo); (36%positive, (TPtr p1)); (37%positive, (TPtr p1)); (38%positive, (TPtr p1)); (39%positive, lo); (40%positive, lo); (41%positive, lo); (42%positive, lo); (43%positive, (TPtr p1)); (44%positive, (TPtr p1)); (45%positive, (TPtr p1)); (46%positive, lo); (47%positive, lo); (48%positive, lo); (49%positive, lo); (50%positive, (TPtr p1)); (51%positive, (TPtr p1)); (52%positive, (TPtr p1)); (53%positive, lo); (54%positive, lo); (55%positive, lo); (56%positive, lo); (57%positive, (TPtr p1)); (58%positive, (TPtr p1)); (59%positive, lo); (60%positive, lo); (61%positive, lo); (62%positive, lo); (63%positive, (TPtr p1)); (64%positive, (TPtr p1)); (65%positive, (TPtr p1)); (66%positive, lo); (67%positive, lo); (68%positive, lo); (69%positive, lo); (70%positive, (TPtr p1)); (71%positive, (TPtr p1)); (72%positive, (TPtr p1)); (73%positive, lo); (74%positive, lo); (75%positive, lo); (76%positive, lo); (77%positive, (TPtr p1)); (78%positive, (TPtr p1)); (79%positive, (TPtr p1)); (80%positive, lo); (81%positive, lo); (82%positive, lo); (83%positive, lo); (84%positive, (TPtr p1)); (85%positive, (TPtr p1)); (86%positive, lo); (87%positive, lo); (88%positive, lo); (89%positive, lo); (90%positive, (TPtr p1)); (91%positive, (TPtr p1)); (92%positive, (TPtr p1)); (93%positive, lo); (94%positive, lo); (95%positive, lo); (96%positive, lo); (97%positive, (TPtr p1)); (98%positive, (TPtr p1)); (99%positive, (TPtr p1)); (100%positive, lo); (101%positive, lo); (102%positive, lo); (103%positive, lo); (104%positive, (TPtr p1)); (105%positive, (TPtr p1)); (106%positive, (TPtr p1)); (107%positive, lo); (108%positive, lo); (109%positive, lo); (110%positive, lo); (111%positive, (TPtr p1)); (112%positive, (TPtr p1)); (113%positive, (TPtr p1)); (114%positive, lo); (115%positive, lo); (116%positive, lo); (117%positive, lo); (118%positive, (TPtr p1)); (119%positive, (TPtr p1)); (120%positive, (TPtr p1)); (121%positive, lo); (122%positive, lo); (123%positive, lo); (124%positive, lo); (125%positive, (TPtr p1)); (126%positive, (TPtr p1)); (127%positive, (TPtr p1)); (128%positive, lo); (129%positive, lo); (130%positive, lo); (131%positive, lo); (132%positive, (TPtr p1)); (133%positive, (TPtr p1)); (134%positive, (TPtr p1)); (135%positive, lo); (136%positive, lo); (137%positive, lo); (138%positive, lo)];
   Entry f_aes_encrypt (Sig [(TPtr p1); (TPtr p1); lo; lo] lo)
     [(1%positive, (TPtr p1)); (2%positive, (TPtr p1)); (3%positive, lo); (4%positive, lo); (5%positive, lo); (6%positive, lo); (7%positive, lo); (8%positive, lo)];
   Entry f_aes_extend_witness (Sig [(TPtr p0); (TPtr p0); (TPtr p1)] (TPtr p1))
     [(1%positive, (TPtr p0)); (2%positive, (TPtr p0)); (3%positive, (TPtr p1)); (4%positive, lo); (5%positive, lo); (6%positive, lo); (7%positive, lo); (8%positive, lo); (9%positive, (TPtr p1)); (10%positive, (TPtr p1)); (11%positive, (TPtr p1)); (12%positive, lo); (13%positive, lo); (14%positive, lo); (15%positive, (TPtr p0)); (16%positive, (TPtr p1)); (17%positive, lo); (18%positive, lo); (19%positive, lo); (20%positive, lo); (21%positive, lo); (22%positive, lo); (23%positive, lo); (24%positive, lo); (25%positive, lo); (26%positive, lo); (27%positive, (TPtr p1)); (28%positive, lo); (29%positive, lo)];
   Entry f_aes_increment_iv (Sig [(TPtr p1)] lo)
     [(1%positive, (TPtr p1)); (2%positive, lo); (3%positive, (TPtr p1))];
   Entry f_aes_key_schedule_backward_1 (Sig [(TPtr p1); (TPtr p1); (TPtr p1); (TPtr p1)] lo)
     [(1%positive, (TPtr p1)); (2%positive, (TPtr p1)); (3%positive, (TPtr p1)); (4%positive, (TPtr p1)); (5%positive, lo); (6%positive, lo); (7%positive, lo); (8%positive, lo); (9%positive, lo); (10%positive, lo); (11%positive, lo); (12%positive, lo); (13%positive, lo); (14%positive, lo); (15%positive, lo); (16%positive, lo)];
   Entry f_aes_key_schedule_backward_128 (Sig [(TPtr p1); (TPtr p1); lo; lo; (TPtr p0); (TPtr p1)] lo)
     [(1%positive, (TPtr p1)); (2%positive, (TPtr p1)); (3%positive, lo); (4%positive, lo); (5%positive, (TPtr p0)); (6%positive, (TPtr p1)); (7%positive, (TPtr p1)); (8%positive, (TPtr p1)); (9%positive, (TPtr p1)); (10%positive, (TPtr p1)); (11%positive, lo); (12%positive, lo); (13%positive, lo); (14%positive, (TPtr p1)); (15%positive, lo); (16%positive, (TPtr p1)); (17%positive, lo); (18%positive, lo); (19%positive, lo); (20%positive, lo); (21%positive, lo); (22%positive, lo); (23%positive, (TPtr p1)); (24%positive, lo); (25%positive, (TPtr p1)); (26%positive, (TPtr p1)); (27%positive, (TPtr p1)); (28%positive, lo); (29%positive, lo); (30%positive, lo); (31%positive, (TPtr p1)); (32%positive, lo); (33%positive, (TPtr p1)); (34%positive, lo); (35%positive, lo); (36%positive, lo); (37%positive, (TPtr p1)); (38%positive, (TPtr p1)); (39%positive, (TPtr p1)); (40%positive, lo); (41%positive, lo); (42%positive, lo); (43%positive, (TPtr p1)); (44%positive, (TPtr p1)); (45%positive, (TPtr p1)); (46%positive, (TPtr p1)); (47%positive, lo); (48%positive, lo); (49%positive, (TPtr p1)); (50%positive, (TPtr p1)); (51%positive, lo); (52%positive, lo); (53%positive, lo); (54%positive, (TPtr p1)); (55%positive, (TPtr p1)); (56%positive, lo); (57%positive, lo); (58%positive, lo)];
   Entry f_aes_key_schedule_backward_192 (Sig [(TPtr p1); (TPtr p1); lo; lo; (TPtr p0); (TPtr p1)] lo)
     [(1%positive, (TPtr p1)); (2%positive, (TPtr p1)); (3%positive, lo); (4%positive, lo); (5%positive, (TPtr p0)); (6%positive, (TPtr p1)); (7%positive, (TPtr p1)); (8%positive, (TPtr p1)); (9%positive, (TPtr p1)); (10%positive, (TPtr p1)); (11%positive, lo); (12%positive, lo); (13%positive, lo); (14%positive, (TPtr p1)); (15%positive, lo); (16%positive, (TPtr p1)); (17%positive, lo); (18%positive, lo); (19%positive, lo); (20%positive, lo); (21%positive, lo); (22%positive, lo); (23%positive, lo); (24%positive, lo); (25%positive, lo); (26%positive, lo); (27%positive, (TPtr p1)); (28%positive, lo); (29%positive, (TPtr p1)); (30%positive, (TPtr p1)); (31%positive, (TPtr p1)); (32%positive, lo); (33%positive, lo); (34%positive, lo); (35%positive, lo); (36%positive, lo); (37%positive, (TPtr p1)); (38%positive, lo); (39%positive, (TPtr p1)); (40%positive, lo); (41%positive, lo); (42%positive, lo); (43%positive, lo); (44%positive, lo); (45%positive, (TPtr p1)); (46%positive, (TPtr p1)); (47%positive, (TPtr p1)); (48%positive, lo); (49%positive, lo); (50%positive, lo); (51%positive, lo); (52%positive, lo); (53%positive, (TPtr p1)); (54%positive, (TPtr p1)); (55%positive, (TPtr p1)); (56%positive, (TPtr p1)); (57%positive, lo); (58%positive, lo); (59%positive, lo); (60%positive, lo); (61%positive, (TPtr p1)); (62%positive, (TPtr p1)); (63%positive, lo); (64%positive, lo); (65%positive, lo); (66%positive, lo); (67%positive, lo); (68%positive, (TPtr p1)); (69%positive, (TPtr p1)); (70%positive, lo); (71%positive, lo); (72%positive, lo); (73%positive, lo); (74%positive, lo)];
   Entry f_aes_key_schedule_backward_256 (Sig [(TPtr p1); (TPtr p1); lo; lo; (TPtr p0); (TPtr p1)] lo)
     [(1%positive, (TPtr p1)); (2%positive, (TPtr p1)); (3%positive, lo); (4%positive, lo); (5%positive, (TPtr p0)); (6%positive, (TPtr p1)); (7%positive, lo); (8%positive, lo); (9%positive, lo); (10%positive, lo); (11%positive, (TPtr p1)); (12%positive, (TPtr p1)); (13%positive, (TPtr p1)); (14%positive, (TPtr p1)); (15%positive, (TPtr p1)); (16%positive, lo); (17%positive, (TPtr p1)); (18%positive, lo); (19%positive, lo); (20%positive, lo); (21%positive, lo); (22%positive, lo); (23%positive, lo); (24%positive, lo); (25%positive, lo); (26%positive, lo); (27%positive, lo); (28%positive, (TPtr p1)); (29%positive, lo); (30%positive, (TPtr p1)); (31%positive, (TPtr p1)); (32%positive, (TPtr p1)); (33%positive, lo); (34%positive, lo); (35%positive, lo); (36%positive, lo); (37%positive, lo); (38%positive, (TPtr p1)); (39%positive, lo); (40%positive, (TPtr p1)); (41%positive, lo); (42%positive, lo); (43%positive, lo); (44%positive, lo); (45%positive, lo); (46%positive, (TPtr p1)); (47%positive, (TPtr p1)); (48%positive, (TPtr p1)); (49%positive, lo); (50%positive, lo); (51%positive, lo); (52%positive, lo); (53%positive, lo); (54%positive, (TPtr p1)); (55%positive, (TPtr p1)); (56%positive, (TPtr p1)); (57%positive, (TPtr p1)); (58%positive, lo); (59%positive, lo); (60%positive, lo); (61%positive, lo); (62%positive, (TPtr p1)); (63%positive, (TPtr p1)); (64%positive, lo); (65%positive, lo); (66%positive, lo); (67%positive, lo); (68%positive, lo); (69%positive, (TPtr p1)); (70%positive, (TPtr p1)); (71%positive, lo); (72%positive, lo); (73%positive, lo); (74%positive, lo); (75%positive, lo)];
   Entry f_aes_key_schedule_constraints_Mkey_0_128 (Sig [(TPtr p1); (TPtr p1); (TPtr p6); (TPtr p6); (TPtr p1); (TPtr p1); (TPtr p1)] lo)
     [(1%positive, (TPtr p1)); (2%positive, (TPtr p1)); (3%positive, (TPtr p6)); (4%positive, (TPtr p6)); (5%positive, (TPtr p1)); (6%positive, (TPtr p1)); (7%positive, (TPtr p1)); (8%positive, (TPtr p1)); (9%positive, (TPtr p1)); (10%positive, lo); (11%positive, lo); (12%positive, (TPtr p1)); (13%positive, (TPtr p1)); (14%positive, (TPtr p1)); (15%positive, (TPtr p1)); (16%positive, lo); (17%positive, (TPtr p1)); (18%positive, (TPtr p1)); (19%positive, (TPtr p1)); (20%positive, (TPtr p1)); (21%positive, (TPtr p1)); (22%positive, (TPtr p1)); (23%positive, (TPtr p1)); (24%positive, (TPtr p1)); (25%positive, lo); (26%positive, (TPtr p1)); (27%positive, (TPtr p1)); (28%positive, (TPtr p1)); (29%positive, (TPtr p1)); (30%positive, lo); (31%positive, lo); (32%positive, (TPtr p1)); (33%positive, (TPtr p1)); (34%positive, (TPtr p1)); (35%positive, lo); (36%positive, lo); (37%positive, (TPtr p1)); (38%positive, (TPtr p1)); (39%positive, (TPtr p1)); (40%positive, lo); (41%positive, lo)];
   Entry f_aes_key_schedule_constraints_Mkey_0_192 (Sig [(TPtr p1); (TPtr p1); (TPtr p6); (TPtr p6); (TPtr p1); (TPtr p1); (TPtr p1)] lo)
     [(1%positive, (TPtr p1)); (2%positive, (TPtr p1)); (3%positive, (TPtr p6)); (4%positive, (TPtr p6)); (5%positive, (TPtr p1)); (6%positive, (TPtr p1)); (7%positive, (TPtr p1)); (8%positive, (TPtr p1)); (9%positive, (TPtr p1)); (10%positive, lo); (11%positive, lo); (12%positive, (TPtr p1)); (13%positive, (TPtr p1)); (14%positive, (TPtr p1)); (15%positive, (TPtr p1)); (16%positive, lo); (17%positive, (TPtr p1)); (18%positive, (TPtr p1)); (19%positive, (TPtr p1)); (20%positive, (TPtr p1)); (21%positive, (TPtr p1)); (22%positive, (TPtr p1)); (23%positive, (TPtr p1)); (24%positive, (TPtr p1)); (25%positive, lo); (26%positive, (TPtr p1)); (27%positive, (TPtr p1)); (28%positive, (TPtr p1)); (29%positive, (TPtr p1)); (30%positive, lo); (31%positive, lo); (32%positive, lo); (33%positive, lo); (34%positive, (TPtr p1)); (35%positive, (TPtr p1)); (36%positive, (TPtr p1)); (37%positive, lo); (38%positive, lo); (39%positive, lo); (40%positive, lo); (41%positive, (TPtr p1)); (42%positive, (TPtr p1)); (43%positive, (TPtr p1)); (44%positive, lo); (45%positive, lo); (46%positive, lo); (47%positive, lo)];
   Entry f_aes_key_schedule_constraints_Mkey_0_256 (Sig [(TPtr p1); (TPtr p1); (TPtr p6); (TPtr p6); (TPtr p1); (TPtr p1); (TPtr p1)] lo)
     [(1%positive, (TPtr p1)); (2%positive, (TPtr p1)); (3%positive, (TPtr p6)); (4%positive, (TPtr p6)); (5%positive, (TPtr p1)); (6%positive, (TPtr p1)); (7%positive, (TPtr p1)); (8%positive, (TPtr p1)); (9%positive, (TPtr p1)); (10%positive, lo); (11%positive, lo); (12%positive, lo); (13%positive, (TPtr p1)); (14%positive, (TPtr p1)); (15%positive, (TPtr p1)); (16%positive, (TPtr p1)); (17%positive, lo); (18%positive, (TPtr p1)); (19%positive, (TPtr p1)); (20%positive, (TPtr p1)); (21%positive, (TPtr p1)); (22%positive, (TPtr p1)); (23%positive, (TPtr p1)); (24%positive, (TPtr p1)); (25%positive, (TPtr p1)); (26%positive, (TPtr p1)); (27%positive, (TPtr p1)); (28%positive, (TPtr p1)); (29%positive, (TPtr p1)); (30%positive, (TPtr p1)); (31%positive, (TPtr p1)); (32%positive, (TPtr p1)); (33%positive, (TPtr p1)); (34%positive, lo); (35%positive, (TPtr p1)); (36%positive, (TPtr p1)); (37%positive, (TPtr p1)); (38%positive, (TPtr p1)); (39%positive, lo); (40%positive, lo); (41%positive, lo); (42%positive, lo); (43%positive, (TPtr p1)); (44%positive, (TPtr p1)); (45%positive, (TPtr p1)); (46%positive, lo); (47%positive, lo); (48%positive, lo); (49%positive, lo); (50%positive, (TPtr p1)); (51%positive, (TPtr p1)); (52%positive, (TPtr p1)); (53%positive, lo); (54%positive, lo); (55%positive, lo); (56%positive, lo)];
   Entry f_aes_key_schedule_constraints_Mkey_1_128 (Sig [(TPtr p1); (TPtr p0); (TPtr p6); (TPtr p1)] lo)
     [(1%positive, (TPtr p1)); (2%positive, (TPtr p0)); (3%positive, (TPtr p6)); (4%positive, (TPtr p1)); (5%positive, (TPtr p1)); (6%positive, (TPtr p1)); (7%positive, (TPtr p1)); (8%positive, lo); (9%positive, lo); (10%positive, (TPtr p1)); (11%positive, (TPtr p1)); (12%positive, lo); (13%positive, (TPtr p1)); (14%positive, (TPtr p1)); (15%positive, (TPtr p1)); (16%positive, (TPtr p1)); (17%positive, lo); (18%positive, (TPtr p1)); (19%positive, (TPtr p1)); (20%positive, lo); (21%positive, lo)];
   Entry f_aes_key_schedule_constraints_Mkey_1_192 (Sig [(TPtr p1); (TPtr p0); (TPtr p6); (TPtr p1)] lo)
     [(1%positive, (TPtr p1)); (2%positive, (TPtr p0)); (3%positive, (TPtr p6)); (4%positive, (TPtr p1)); (5%positive, (TPtr p1)); (6%positive, (TPtr p1)); (7%positive, (TPtr p1)); (8%positive, lo); (9%positive, lo); (10%positive, (TPtr p1)); (11%positive, (TPtr p1)); (12%positive, lo); (13%positive, (TPtr p1)); (14%positive, (TPtr p1)); (15%positive, (TPtr p1)); (16%positive, (TPtr p1)); (17%positive, lo); (18%positive, (TPtr p1)); (19%positive, (TPtr p1)); (20%positive, lo); (21%positive, lo); (22%positive, lo); (23%positive, lo)];
   Entry f_aes_key_schedule_constraints_Mkey_1_256 (Sig [(TPtr p1); (TPtr p0); (TPtr p6); (TPtr p1)] lo)
     [(1%positive, (TPtr p1)); (2%positive, (TPtr p0)); (3%positive, (TPtr p6)); (4%positive, (TPtr p1)); (5%positive, (TPtr p1)); (6%positive, (TPtr p1)); (7%positive, (TPtr p1)); (8%positive, lo); (9%positive, lo); (10%positive, lo); (11%positive, (TPtr p1)); (12%positive, (TPtr p1)); (13%positive, lo); (14%positive, (TPtr p1)); (15%positive, (TPtr p1)); (16%positive, (TPtr p1)); (17%positive, (TPtr p1)); (18%positive, (TPtr p1)); (19%positive, (TPtr p1)); (20%positive, (TPtr p1)); (21%positive, (TPtr p1)); (22%positive, lo); (23%positive, (TPtr p1)); (24%positive, (TPtr p1)); (25%positive, lo); (26%positive, lo); (27%positive, lo); (28%positive, lo)];
   Entry f_aes_key_schedule_forward_1 (Sig [(TPtr p1); (TPtr p1); (TPtr p1)] lo)
     [(1%positive, (TPtr p1)); (2%positive, (TPtr p1)); (3%positive, (TPtr p1)); (4%positive, lo); (5%positive, lo); (6%positive, lo); (7%positive, lo); (8%positive, lo); (9%positive, lo); (10%positive, lo); (11%positive, lo); (12%positive, (TPtr p1))];
   Entry f_aes_key_schedule_forward_128 (Sig [(TPtr p1); (TPtr p1)] lo)
     [(1%positive, (TPtr p1)); (2%positive, (TPtr p1)); (3%positive, lo); (4%positive, lo); (5%positive, lo); (6%positive, (TPtr p1)); (7%positive, (TPtr p1)); (8%positive, (TPtr p1)); (9%positive, lo); (10%positive, lo)];
   Entry f_aes_key_schedule_forward_192 (Sig [(TPtr p1); (TPtr p1)] lo)
     [(1%positive, (TPtr p1)); (2%positive, (TPtr p1)); (3%positive, lo); (4%positive, lo); (5%positive, lo); (6%positive, (TPtr p1)); (7%positive, (TPtr p1)); (8%positive, (TPtr p1)); (9%positive, lo); (10%positive, lo); (11%positive, lo); (12%positive, lo)];
   Entry f_aes_key_schedule_forward_256 (Sig [(TPtr p1); (TPtr p1)] lo)
     [(1%positive, (TPtr p1)); (2%positive, (TPtr p1)); (3%positive, lo); (4%positive, lo); (5%positive, lo); (6%positive, (TPtr p1)); (7%positive, (TPtr p1)); (8%positive, (TPtr p1)); (9%positive, lo); (10%positive, lo); (11%positive, lo); (12%positive, lo)];
   Entry f_aes_prove (Sig [(TPtr p1); (TPtr p1); (TPtr p5); (TPtr p0); (TPtr p1); (TPtr p1); (TPtr p1); (TPtr p1); (TPtr p1)] lo)
     [(1%positive, (TPtr p1)); (2%positive, (TPtr p1)); (3%positive, (TPtr p5)); (4%positive, (TPtr p0)); (5%positive, (TPtr p1)); (6%positive, (TPtr p1)); (7%positive, (TPtr p1)); (8%positive, (TPtr p1)); (9%positive, (TPtr p1)); (10%positive, lo)];
   Entry f_aes_prove_128 (Sig [(TPtr p1); (TPtr p1); (TPtr p5); (TPtr p0); (TPtr p1); (TPtr p1); (TPtr p1); (TPtr p1); (TPtr p1)] lo)
     [(1%positive, (TPtr p1)); (2%positive, (TPtr p1)); (3%positive, (TPtr p5)); (4%positive, (TPtr p0)); (5%positive, (TPtr p1)); (6%positive, (TPtr p1)); (7%positive, (TPtr p1)); (8%positive, (TPtr p1)); (9%positive, (TPtr p1)); (10%positive, (TPtr p1)); (11%positive, (TPtr p1)); (12%positive, (TPtr p1)); (13%positive, (TPtr p1)); (14%positive, (TPtr p1)); (15%positive, (TPtr p1)); (16%positive, (TPtr p6)); (17%positive, (TPtr p1)); (18%positive, (TPtr p1)); (19%positive, (TPtr p1)); (20%positive, (TPtr p1)); (21%positive, (TPtr p5)); (22%positive, (TPtr p6)); (23%positive, (TPtr p1)); (24%positive, (TPtr p1)); (25%positive, (TPtr p1)); (26%positive, (TPtr p1)); (27%positive, (TPtr p5)); (28%positive, (TPtr p1)); (29%positive, (TPtr p1))];
   Entry f_aes_prove_192 (Sig [(TPtr p1); (TPtr p1); (TPtr p5); (TPtr p0); (TPtr p1); (TPtr p1); (TPtr p1); (TPtr p1); (TPtr p1)] lo)
     [(1%positive, (TPtr p1)); (2%positive, (TPtr p1)); (3%positive, (TPtr p5)); (4%positive, (TPtr p0)); (5%positive, (TPtr p1)); (6%positive, (TPtr p1)); (7%positive, (TPtr p1)); (8%positive, (TPtr p1)); (9%positive, (TPtr p1)); (10%positive, (TPtr p1)); (11%positive, (TPtr p1)); (12%positive, (TPtr p1)); (13%positive, (TPtr p1)); (14%positive, (TPtr p1)); (15%positive, (TPtr p1)); (16%positive, (TPtr p6)); (17%positive, (TPtr p1)); (18%positive, (TPtr p1)); (19%positive, (TPtr p1)); (20%positive, (TPtr p1)); (21%positive, (TPtr p5)); (22%positive, (TPtr p6)); (23%positive, (TPtr p1)); (24%positive, (TPtr p1)); (25%positive, (TPtr p1)); (26%positive, (TPtr p1)); (27%positive, (TPtr p5)); (28%positive, (TPtr p1)); (29%positive, (TPtr p1))];
   Entry f_aes_prove_256 (Sig [(TPtr p1); (TPtr p1); (TPtr p5); (TPtr p0); (TPtr p1); (TPtr p1); (TPtr p1); (TPtr p1); (TPtr p1)] lo)
     [(1%positive, (TPtr p1)); (2%positive, (TPtr p1)); (3%positive, (TPtr p5)); (4%positive, (TPtr p0)); (5%positive, (TPtr p1)); (6%positive, (TPtr p1)); (7%positive, (TPtr p1)); (8%positive, (TPtr p1)); (9%positive, (TPtr p1)); (10%positive, (TPtr p1)); (11%positive, (TPtr p1)); (12%positive, (TPtr p1)); (13%positive, (TPtr p1)); (14%positive, (TPtr p1)); (15%positive, (TPtr p1)); (16%positive, (TPtr p6)); (17%positive, (TPtr p1)); (18%positive, (TPtr p1)); (19%positive, (TPtr p1)); (20%positive, (TPtr p1)); (21%positive, (TPtr p5)); (22%positive, (TPtr p6)); (23%positive, (TPtr p1)); (24%positive, (TPtr p1)); (25%positive, (TPtr p1)); (26%positive, (TPtr p1)); (27%positive, (TPtr p5)); (28%positive, (TPtr p1)); (29%positive, (TPtr p1))];
   Entry f_aes_verify (Sig [(TPtr p0); (TPtr p5); (TPtr p1); (TPtr p0); (TPtr p0); (TPtr p0); (TPtr p0); (TPtr p1)] (TPtr p1))
     [(1%positive, (TPtr p0)); (2%positive, (TPtr p5)); (3%positive, (TPtr p1)); (4%positive, (TPtr p0)); (5%positive, (TPtr p0)); (6%positive, (TPtr p0)); (7%positive, (TPtr p0)); (8%positive, (TPtr p1)); (9%positive, lo); (10%positive, (TPtr p1)); (11%positive, (TPtr p1)); (12%positive, (TPtr p1)); (13%positive, (TPtr p1)); (14%positive, (TPtr p1)); (15%positive, (TPtr p1)); (16%positive, (TPtr p1)); (17%positive, (TPtr p1)); (18%positive, (TPtr p1)); (19%positive, (TPtr p1)); (20%positive, (TPtr p1)); (21%positive, (TPtr p1))];
   Entry f_aes_verify_128 (Sig [(TPtr p0); (TPtr p5); (TPtr p1); (TPtr p0); (TPtr p0); (TPtr p0); (TPtr p0); (TPtr p1)] (TPtr p1))
     [(1%positive, (TPtr p0)); (2%positive, (TPtr p5)); (3%positive, (TPtr p1)); (4%positive, (TPtr p0)); (5%positive, (TPtr p0)); (6%positive, (TPtr p0)); (7%positive, (TPtr p0)); (8%positive, (TPtr p1)); (9%positive, lo); (10%positive, lo); (11%positive, lo); (12%positive, lo); (13%positive, lo); (14%positive, (TPtr p0)); (15%positive, lo); (16%positive, lo); (17%positive, lo); (18%positive, (TPtr p1)); (19%positive, lo); (20%positive, lo); (21%positive, (TPtr p1)); (22%positive, (TPtr p1)); (23%positive, (TPtr p1)); (24%positive, (TPtr p1)); (25%positive, (TPtr p6)); (26%positive, (TPtr p1)); (27%positive, (TPtr p1)); (28%positive, (TPtr p1)); (29%positive, (TPtr p1)); (30%positive, (TPtr p5)); (31%positive, (TPtr p1)); (32%positive, (TPtr p1)); (33%positive, (TPtr p1)); (34%positive, (TPtr p1)); (35%positive, (TPtr p1)); (36%positive, (TPtr p1)); (37%positive, (TPtr p1)); (38%positive, (TPtr p1)); (39%positive, lo); (40%positive, lo)];
   Entry f_aes_verify_192 (Sig [(TPtr p0); (TPtr p5); (TPtr p1); (TPtr p0); (TPtr p0); (TPtr p0); (TPtr p0); (TPtr p1)] (TPtr p1))
     [(1%positive, (TPtr p0)); (2%positive, (TPtr p5)); (3%positive, (TPtr p1)); (4%positive, (TPtr p0)); (5%positive, (TPtr p0)); (6%positive, (TPtr p0)); (7%positive, (TPtr p0)); (8%positive, (TPtr p1)); (9%positive, lo); (10%positive, lo); (11%positive, lo); (12%positive, lo); (13%positive, lo); (14%positive, (TPtr p0)); (15%positive, lo); (16%positive, lo); (17%positive, lo); (18%positive, (TPtr p1)); (19%positive, lo); (20%positive, lo); (21%positive, (TPtr p1)); (22%positive, (TPtr p1)); (23%positive, (TPtr p1)); (24%positive, (TPtr p1)); (25%positive, (TPtr p6)); (26%positive, (TPtr p1)); (27%positive, (TPtr p1)); (28%positive, (TPtr p1)); (29%positive, (TPtr p1)); (30%positive, (TPtr p5)); (31%positive, (TPtr p1)); (32%positive, (TPtr p1)); (33%positive, (TPtr p1)); (34%positive, (TPtr p1)); (35%positive, (TPtr p1)); (36%positive, (TPtr p1)); (37%positive, (TPtr p1)); (38%positive, (TPtr p1)); (39%positive, lo); (40%positive, lo); (41%positive, lo); (42%positive, lo)];
   Entry f_aes_verify_256 (Sig [(TPtr p0); (TPtr p5); (TPtr p1); (TPtr p0); (TPtr p0); (TPtr p0); (TPtr p0); (TPtr p1)] (TPtr p1))
     [(1%positive, (TPtr p0)); (2%positive, (TPtr p5)); (3%positive, (TPtr p1)); (4%positive, (TPtr p0)); (5%positive, (TPtr p0)); (6%positive, (TPtr p0)); (7%positive, (TPtr p0)); (8%positive, (TPtr p1)); (9%positive, lo); (10%positive, lo); (11%positive, lo); (12%positive, lo); (13%positive, lo); (14%positive, (TPtr p0)); (15%positive, lo); (16%positive, lo); (17%positive, lo); (18%positive, (TPtr p1)); (19%positive, lo); (20%positive, lo); (21%positive, (TPtr p1)); (22%positive, (TPtr p1)); (23%positive, (TPtr p1)); (24%positive, (TPtr p1)); (25%positive, (TPtr p6)); (26%positive, (TPtr p1)); (27%positive, (TPtr p1)); (28%positive, (TPtr p1)); (29%positive, (TPtr p1)); (30%positive, (TPtr p5)); (31%positive, (TPtr p1)); (32%positive, (TPtr p1)); (33%positive, (TPtr p1)); (34%positive, (TPtr p1)); (35%positive, (TPtr p1)); (36%positive, (TPtr p1)); (37%positive, (TPtr p1)); (38%positive, (TPtr p1)); (39%positive, lo); (40%positive, lo); (41%positive, lo); (42%positive, lo)];
   Entry f_bf128_bit_to_uint64_mask (Sig [(TPtr p1); lo] lo)
     [(1%positive, (TPtr p1)); (2%positive, lo); (3%positive, (TPtr p1)); (4%positive, lo); (5%positive, lo)];
   Entry f_bf128_byte_combine (Sig [(TPtr p1); (TPtr p0)] lo)
     [(1%positive, (TPtr p1)); (2%positive, (TPtr p0)); (3%positive, (TPtr p1)); (4%positive, lo); (5%positive, (TPtr p1)); (6%positive, lo); (7%positive, lo)];
   Entry f_bf128_byte_combine (Sig [(TPtr p1); (TPtr p1)] lo)
     [(1%positive, (TPtr p1)); (2%positive, (TPtr p1)); (3%positive, (TPtr p1)); (4%positive, lo); (5%positive, (TPtr p1)); (6%positive, lo); (7%positive, lo)];
   Entry f_bf128_byte_combine_bits (Sig [(TPtr p1); lo] lo)
     [(1%positive, (TPtr p1)); (2%positive, lo); (3%positive, (TPtr p1)); (4%positive, lo); (5%positive, (TPtr p0)); (6%positive, lo); (7%positive, (TPtr p0)); (8%positive, lo); (9%positive, (TPtr p0)); (10%positive, lo); (11%positive, (TPtr p0)); (12%positive, lo); (13%positive, (TPtr p0)); (14%positive, lo); (15%positive, (TPtr p0)); (16%positive, lo); (17%positive, lo); (18%positive, lo)];
   Entry f_bf128_dbl (Sig [(TPtr p1); (TPtr p1)] lo)
     [(1%positive, (TPtr p1)); (2%positive, (TPtr p1)); (3%positive, (TPtr p1)); (4%positive, lo); (5%positive, lo); (6%positive, (TPtr p1)); (7%positive, lo); (8%positive, lo)];
   Entry f_bf128_from_bf8 (Sig [(TPtr p1); lo] lo)
     [(1%positive, (TPtr p1)); (2%positive, lo); (3%positive, (TPtr p1))];
   Entry f_bf128_from_bit (Sig [(TPtr p1); lo] lo)
     [(1%positive, (TPtr p1)); (2%positive, lo); (3%positive, (TPtr p1))];
   Entry f_bf128_load (Sig [(TPtr p1); (TPtr p0)] lo)
     [(1%positive, (TPtr p1)); (2%positive, (TPtr p0)); (3%positive, (TPtr p1))];
   Entry f_bf128_load (Sig [(TPtr p1); (TPtr p1)] lo)
     [(1%positive, (TPtr p1)); (2%positive, (TPtr p1)); (3%positive, (TPtr p1))];
   Entry f_bf128_mul (Sig [(TPtr p1); (TPtr p0); (TPtr p0)] lo)
     [(1%positive, (TPtr p1)); (2%positive, (TPtr p0)); (3%positive, (TPtr p0)); (4%positive, (TPtr p1)); (5%positive, (TPtr p1)); (6%positive, (TPtr p1)); (7%positive, lo); (8%positive, lo); (9%positive, lo); (10%positive, lo); (11%positive, lo); (12%positive, lo); (13%positive, (TPtr p1)); (14%positive, lo); (15%positive, lo); (16%positive, lo); (17%positive, lo); (18%positive, lo)];
   Entry f_bf128_mul (Sig [(TPtr p1); (TPtr p1); (TPtr p0)] lo)
     [(1%positive, (TPtr p1)); (2%positive, (TPtr p1)); (3%positive, (TPtr p0)); (4%positive, (TPtr p1)); (5%positive, (TPtr p1)); (6%positive, (TPtr p1)); (7%positive, lo); (8%positive, lo); (9%positive, lo); (10%positive, lo); (11%positive, lo); (12%positive, lo); (13%positive, (TPtr p1)); (14%positive, lo); (15%positive, lo); (16%positive, lo); (17%positive, lo); (18%positive, lo)];
   Entry f_bf128_mul (Sig [(TPtr p1); (TPtr p1); (TPtr p1)] lo)
     [(1%positive, (TPtr p1)); (2%positive, (TPtr p1)); (3%positive, (TPtr p1)); (4%positive, (TPtr p1)); (5%positive, (TPtr p1)); (6%positive, (TPtr p1)); (7%positive, lo); (8%positive, lo); (9%positive, lo); (10%positive, lo); (11%positive, lo); (12%positive, lo); (13%positive, (TPtr p1)); (14%positive, lo); (15%positive, lo); (16%positive, lo); (17%positive, lo); (18%positive, lo)];
   Entry f_bf128_mul_64 (Sig [(TPtr p1); (TPtr p1); lo] lo)
     [(1%positive, (TPtr p1)); (2%positive, (TPtr p1)); (3%positive, lo); (4%positive, (TPtr p1)); (5%positive, (TPtr p1)); (6%positive, lo); (7%positive, lo); (8%positive, lo); (9%positive, lo); (10%positive, lo); (11%positive, lo); (12%positive, (TPtr p1)); (13%positive, lo); (14%positive, lo); (15%positive, lo); (16%positive, lo); (17%positive, lo)];
   Entry f_bf128_one (Sig [(TPtr p1)] lo)
     [(1%positive, (TPtr p1)); (2%positive, (TPtr p1))];
   Entry f_bf128_store (Sig [(TPtr p1); (TPtr p1)] lo)
     [(1%positive, (TPtr p1)); (2%positive, (TPtr p1)); (3%positive, (TPtr p1))];
   Entry f_bf128_sum_poly (Sig [(TPtr p1); (TPtr p1)] lo)
     [(1%positive, (TPtr p1)); (2%positive, (TPtr p1)); (3%positive, (TPtr p1)); (4%positive, lo); (5%positive, (TPtr p1)); (6%positive, (TPtr p1)); (7%positive, lo); (8%positive, lo)];
   Entry f_bf128_zero (Sig [(TPtr p1)] lo)
     [(1%positive, (TPtr p1)); (2%positive, (TPtr p1))];
   Entry f_bf192_bit_to_uint64_mask (Sig [(TPtr p1); lo] lo)
     [(1%positive, (TPtr p1)); (2%positive, lo); (3%positive, (TPtr p1)); (4%positive, lo); (5%positive, lo)];
   Entry f_bf192_byte_combine (Sig [(TPtr p1); (TPtr p0)] lo)
     [(1%positive, (TPtr p1)); (2%positive, (TPtr p0)); (3%positive, (TPtr p1)); (4%positive, lo); (5%positive, (TPtr p1)); (6%positive, lo); (7%positive, lo); (8%positive, lo); (9%positive, lo)];
   Entry f_bf192_byte_combine (Sig [(TPtr p1); (TPtr p1)] lo)
     [(1%positive, (TPtr p1)); (2%positive, (TPtr p1)); (3%positive, (TPtr p1)); (4%positive, lo); (5%positive, (TPtr p1)); (6%positive, lo); (7%positive, lo); (8%positive, lo); (9%positive, lo)];
   Entry f_bf192_byte_combine_bits (Sig [(TPtr p1); lo] lo)
     [(1%positive, (TPtr p1)); (2%positive, lo); (3%positive, (TPtr p1)); (4%positive, lo); (5%positive, (TPtr p0)); (6%positive, lo); (7%positive, (TPtr p0)); (8%positive, lo); (9%positive, (TPtr p0)); (10%positive, lo); (11%positive, (TPtr p0)); (12%positive, lo); (13%positive, (TPtr p0)); (14%positive, lo); (15%positive, (TPtr p0)); (16%positive, lo); (17%positive, lo); (18%positive, lo); (19%positive, lo); (20%positive, lo)];
   Entry f_bf192_dbl (Sig [(TPtr p1); (TPtr p1)] lo)
     [(1%positive, (TPtr p1)); (2%positive, (TPtr p1)); (3%positive, (TPtr p1)); (4%positive, lo); (5%positive, lo); (6%positive, (TPtr p1))];
   Entry f_bf192_from_bf8 (Sig [(TPtr p1); lo] lo)
     [(1%positive, (TPtr p1)); (2%positive, lo); (3%positive, (TPtr p1))];
   Entry f_bf192_from_bit (Sig [(TPtr p1); lo] lo)
     [(1%positive, (TPtr p1)); (2%positive, lo); (3%positive, (TPtr p1))];
   Entry f_bf192_load (Sig [(TPtr p1); (TPtr p0)] lo)
     [(1%positive, (TPtr p1)); (2%positive, (TPtr p0)); (3%positive, (TPtr p1))];
   Entry f_bf192_load (Sig [(TPtr p1); (TPtr p1)] lo)
     [(1%positive, (TPtr p1)); (2%positive, (TPtr p1)); (3%positive, (TPtr p1))];
   Entry f_bf192_mul (Sig [(TPtr p1); (TPtr p0); (TPtr p0)] lo)
     [(1%positive, (TPtr p1)); (2%positive, (TPtr p0)); (3%positive, (TPtr p0)); (4%positive, (TPtr p1)); (5%positive, (TPtr p1)); (6%positive, (TPtr p1)); (7%positive, lo); (8%positive, lo); (9%positive, lo); (10%positive, lo); (11%positive, lo); (12%positive, lo); (13%positive, lo); (14%positive, lo); (15%positive, (TPtr p1)); (16%positive, lo); (17%positive, lo); (18%positive, lo); (19%positive, lo); (20%positive, lo)];
   Entry f_bf192_mul (Sig [(TPtr p1); (TPtr p1); (TPtr p0)] lo)
     [(1%positive, (TPtr p1)); (2%positive, (TPtr p1)); (3%positive, (TPtr p0)); (4%positive, (TPtr p1)); (5%positive, (TPtr p1)); (6%positive, (TPtr p1)); (7%positive, lo); (8%positive, lo); (9%positive, lo); (10%positive, lo); (11%positive, lo); (12%positive, lo); (13%positive, lo); (14%positive, lo); (15%positive, (TPtr p1)); (16%positive, lo); (17%positive, lo); (18%positive, lo); (19%positive, lo); (20%positive, lo)];
   Entry f_bf192_mul (Sig [(TPtr p1); (TPtr p1); (TPtr p1)] lo)
     [(1%positive, (TPtr p1)); (2%positive, (TPtr p1)); (3%positive, (TPtr p1)); (4%positive, (TPtr p1)); (5%positive, (TPtr p1)); (6%positive, (TPtr p1)); (7%positive, lo); (8%positive, lo); (9%positive, lo); (10%positive, lo); (11%positive, lo); (12%positive, lo); (13%positive, lo); (14%positive, lo); (15%positive, (TPtr p1)); (16%positive, lo); (17%positive, lo); (18%positive, lo); (19%positive, lo); (20%positive, lo)];
   Entry f_bf192_mul_64 (Sig [(TPtr p1); (TPtr p1); lo] lo)
     [(1%positive, (TPtr p1)); (2%positive, (TPtr p1)); (3%positive, lo); (4%positive, (TPtr p1)); (5%positive, (TPtr p1)); (6%positive, lo); (7%positive, lo); (8%positive, lo); (9%positive, lo); (10%positive, lo); (11%positive, lo); (12%positive, lo); (13%positive, lo); (14%positive, (TPtr p1)); (15%positive, lo); (16%positive, lo); (17%positive, lo); (18%positive, lo); (19%positive, lo)];
   Entry f_bf192_one (Sig [(TPtr p1)] lo)
     [(1%positive, (TPtr p1)); (2%positive, (TPtr p1))];
   Entry f_bf192_shift_left_1 (Sig [(TPtr p1); (TPtr p1)] lo)
     [(1%positive, (TPtr p1)); (2%positive, (TPtr p1)); (3%positive, (TPtr p1)); (4%positive, (TPtr p1)); (5%positive, (TPtr p1)); (6%positive, lo); (7%positive, lo); (8%positive, lo); (9%positive, lo)];
   Entry f_bf192_store (Sig [(TPtr p1); (TPtr p1)] lo)
     [(1%positive, (TPtr p1)); (2%positive, (TPtr p1)); (3%positive, (TPtr p1))];
   Entry f_bf192_sum_poly (Sig [(TPtr p1); (TPtr p1)] lo)
     [(1%positive, (TPtr p1)); (2%positive, (TPtr p1)); (3%positive, (TPtr p1)); (4%positive, lo); (5%positive, (TPtr p1)); (6%positive, (TPtr p1)); (7%positive, lo); (8%positive, lo); (9%positive, lo); (10%positive, lo)];
   Entry f_bf192_zero (Sig [(TPtr p1)] lo)
     [(1%positive, (TPtr p1)); (2%positive, (TPtr p1))];
   Entry f_bf256_bit_to_uint64_mask (Sig [(TPtr p1); lo] lo)
     [(1%positive, (TPtr p1)); (2%positive, lo); (3%positive, (TPtr p1)); (4%positive, lo); (5%positive, lo)];
   Entry f_bf256_byte_combine (Sig [(TPtr p1); (TPtr p0)] lo)
     [(1%positive, (TPtr p1)); (2%positive, (TPtr p0)); (3%positive, (TPtr p1)); (4%positive, lo); (5%positive, (TPtr p1)); (6%positive, lo); (7%positive, lo); (8%positive, lo); (9%positive, lo)];
   Entry f_bf256_byte_combine (Sig [(TPtr p1); (TPtr p1)] lo)
     [(1%positive, (TPtr p1)); (2%positive, (TPtr p1)); (3%positive, (TPtr p1)); (4%positive, lo); (5%positive, (TPtr p1)); (6%positive, lo); (7%positive, lo); (8%positive, lo); (9%positive, lo)];
   Entry f_bf256_byte_combine_bits (Sig [(TPtr p1); lo] lo)
     [(1%positive, (TPtr p1)); (2%positive, lo); (3%positive, (TPtr p1)); (4%positive, lo); (5%positive, (TPtr p0)); (6%positive, lo); (7%positive, (TPtr p0)); (8%positive, lo); (9%positive, (TPtr p0)); (10%positive, lo); (11%positive, (TPtr p0)); (12%positive, lo); (13%positive, (TPtr p0)); (14%positive, lo); (15%positive, (TPtr p0)); (16%positive, lo); (17%positive, lo); (18%positive, lo); (19%positive, lo); (20%positive, lo)];
   Entry f_bf256_dbl (Sig [(TPtr p1); (TPtr p1)] lo)
     [(1%positive, (TPtr p1)); (2%positive, (TPtr p1)); (3%positive, (TPtr p1)); (4%positive, lo); (5%positive, lo); (6%positive, (TPtr p1)); (7%positive, lo); (8%positive, lo); (9%positive, lo); (10%positive, lo); (11%positive, (TPtr p1)); (12%positive, lo); (13%positive, lo); (14%positive, lo); (15%positive, lo)];
   Entry f_bf256_from_bf8 (Sig [(TPtr p1); lo] lo)
     [(1%positive, (TPtr p1)); (2%positive, lo); (3%positive, (TPtr p1))];
   Entry f_bf256_from_bit (Sig [(TPtr p1); lo] lo)
     [(1%positive, (TPtr p1)); (2%positive, lo); (3%positive, (TPtr p1))];
   Entry f_bf256_load (Sig [(TPtr p1); (TPtr p0)] lo)
     [(1%positive, (TPtr p1)); (2%positive, (TPtr p0)); (3%positive, (TPtr p1))];
   Entry f_bf256_load (Sig [(TPtr p1); (TPtr p1)] lo)
     [(1%positive, (TPtr p1)); (2%positive, (TPtr p1)); (3%positive, (TPtr p1))];
   Entry f_bf256_mul (Sig [(TPtr p1); (TPtr p0); (TPtr p0)] lo)
     [(1%positive, (TPtr p1)); (2%positive, (TPtr p0)); (3%positive, (TPtr p0)); (4%positive, (TPtr p1)); (5%positive, (TPtr p1)); (6%positive, (TPtr p1)); (7%positive, (TPtr p1)); (8%positive, lo); (9%positive, lo); (10%positive, lo); (11%positive, lo); (12%positive, lo); (13%positive, lo); (14%positive, lo); (15%positive, lo); (16%positive, (TPtr p1)); (17%positive, lo); (18%positive, lo); (19%positive, lo); (20%positive, lo); (21%positive, lo); (22%positive, lo); (23%positive, lo); (24%positive, lo); (25%positive, lo); (26%positive, lo); (27%positive, lo); (28%positive, lo); (29%positive, lo)];
   Entry f_bf256_mul (Sig [(TPtr p1); (TPtr p1); (TPtr p0)] lo)
     [(1%positive, (TPtr p1)); (2%positive, (TPtr p1)); (3%positive, (TPtr p0)); (4%positive, (TPtr p1)); (5%positive, (TPtr p1)); (6%positive, (TPtr p1)); (7%positive, (TPtr p1)); (8%positive, lo); (9%positive, lo); (10%positive, lo); (11%positive, lo); (12%positive, lo); (13%positive, lo); (14%positive, lo); (15%positive, lo); (16%positive, (TPtr p1)); (17%positive, lo); (18%positive, lo); (19%positive, lo); (20%positive, lo); (21%positive, lo); (22%positive, lo); (23%positive, lo); (24%positive, lo); (25%positive, lo); (26%positive, lo); (27%positive, lo); (28%positive, lo); (29%positive, lo)];
   Entry f_bf256_mul (Sig [(TPtr p1); (TPtr p1); (TPtr p1)] lo)
     [(1%positive, (TPtr p1)); (2%positive, (TPtr p1)); (3%positive, (TPtr p1)); (4%positive, (TPtr p1)); (5%positive, (TPtr p1)); (6%positive, (TPtr p1)); (7%positive, (TPtr p1)); (8%positive, lo); (9%positive, lo); (10%positive, lo); (11%positive, lo); (12%positive, lo); (13%positive, lo); (14%positive, lo); (15%positive, lo); (16%positive, (TPtr p1)); (17%positive, lo); (18%positive, lo); (19%positive, lo); (20%positive, lo); (21%positive, lo); (22%positive, lo); (23%positive, lo); (24%positive, lo); (25%positive, lo); (26%positive, lo); (27%positive, lo); (28%positive, lo); (29%positive, lo)];
   Entry f_bf256_mul_64 (Sig [(TPtr p1); (TPtr p1); lo] lo)
     [(1%positive, (TPtr p1)); (2%positive, (TPtr p1)); (3%positive, lo); (4%positive, (TPtr p1)); (5%positive, (TPtr p1)); (6%positive, (TPtr p1)); (7%positive, lo); (8%positive, lo); (9%positive, lo); (10%positive, lo); (11%positive, lo); (12%positive, lo); (13%positive, lo); (14%positive, lo); (15%positive, (TPtr p1)); (16%positive, lo); (17%positive, lo); (18%positive, lo); (19%positive, lo); (20%positive, lo); (21%positive, lo); (22%positive, lo); (23%positive, lo); (24%positive, lo); (25%positive, lo); (26%positive, lo); (27%positive, lo); (28%positive, lo)];
   Entry f_bf256_one (Sig [(TPtr p1)] lo)
     [(1%positive, (TPtr p1)); (2%positive, (TPtr p1))];
   Entry f_bf256_store (Sig [(TPtr p1); (TPtr p1)] lo)
     [(1%positive, (TPtr p1)); (2%positive, (TPtr p1)); (3%positive, (TPtr p1))];
   Entry f_bf256_sum_poly (Sig [(TPtr p1); (TPtr p1)] lo)
     [(1%positive, (TPtr p1)); (2%positive, (TPtr p1)); (3%positive, (TPtr p1)); (4%positive, lo); (5%positive, (TPtr p1)); (6%positive, (TPtr p1)); (7%positive, lo); (8%positive, lo); (9%positive, lo); (10%positive, lo)];
   Entry f_bf256_zero (Sig [(TPtr p1)] lo)
     [(1%positive, (TPtr p1)); (2%positive, (TPtr p1))];
   Entry f_bf64_add (Sig [lo; lo] lo)
     [(1%positive, lo); (2%positive, lo)];
   Entry f_bf64_load (Sig [(TPtr p1)] lo)
     [(1%positive, (TPtr p1)); (2%positive, (TPtr p1))];
   Entry f_bf64_mul (Sig [lo; lo] lo)
     [(1%positive, lo); (2%positive, lo); (3%positive, lo); (4%positive, lo); (5%positive, lo)];
   Entry f_bf64_one (Sig [] lo)
     [];
   Entry f_bf64_zero (Sig [] lo)
     [];
   Entry f_bf8_inv (Sig [lo] lo)
     [(1%positive, lo); (2%positive, lo); (3%positive, lo); (4%positive, lo); (5%positive, lo); (6%positive, lo); (7%positive, lo); (8%positive, lo); (9%positive, lo); (10%positive, lo); (11%positive, lo); (12%positive, lo); (13%positive, lo); (14%positive, lo); (15%positive, lo); (16%positive, lo); (17%positive, lo); (18%positive, lo); (19%positive, lo); (20%positive, lo); (21%positive, lo); (22%positive, lo)];
   Entry f_bf8_load (Sig [(TPtr p0)] lo)
     [(1%positive, (TPtr p0))];
   Entry f_bf8_load (Sig [(TPtr p1)] lo)
     [(1%positive, (TPtr p1))];
   Entry f_bf8_mul (Sig [lo; lo] lo)
     [(1%positive, lo); (2%positive, lo); (3%positive, lo); (4%positive, lo); (5%positive, lo)];
   Entry f_bf8_square (Sig [lo] lo)
     [(1%positive, lo); (2%positive, lo); (3%positive, lo); (4%positive, lo); (5%positive, lo)];
   Entry f_bf8_store (Sig [(TPtr p1); lo] lo)
     [(1%positive, (TPtr p1)); (2%positive, lo)];
   Entry f_column_to_row_major_and_shrink_V_128 (Sig [(TPtr p5); lo] (TPtr p1))
     [(1%positive, (TPtr p5)); (2%positive, lo); (3%positive, (TPtr p1)); (4%positive, (TPtr p1)); (5%positive, lo); (6%positive, (TPtr p1)); (7%positive, lo); (8%positive, lo); (9%positive, (TPtr p1)); (10%positive, (TPtr p1)); (11%positive, (TPtr p1))];
   Entry f_column_to_row_major_and_shrink_V_192 (Sig [(TPtr p5); lo] (TPtr p1))
     [(1%positive, (TPtr p5)); (2%positive, lo); (3%positive, (TPtr p1)); (4%positive, (TPtr p1)); (5%positive, lo); (6%positive, (TPtr p1)); (7%positive, lo); (8%positive, lo); (9%positive, (TPtr p1)); (10%positive, (TPtr p1)); (11%positive, (TPtr p1))];
   Entry f_column_to_row_major_and_shrink_V_256 (Sig [(TPtr p5); lo] (TPtr p1))
     [(1%positive, (TPtr p5)); (2%positive, lo); (3%positive, (TPtr p1)); (4%positive, (TPtr p1)); (5%positive, lo); (6%positive, (TPtr p1)); (7%positive, lo); (8%positive, lo); (9%positive, (TPtr p1)); (10%positive, (TPtr p1)); (11%positive, (TPtr p1))];
   Entry f_compute_h1 (Sig [(TPtr p1); (TPtr p1); lo; lo] lo)
     [(1%positive, (TPtr p1)); (2%positive, (TPtr p1)); (3%positive, lo); (4%positive, lo); (5%positive, lo); (6%positive, lo); (7%positive, lo); (8%positive, lo); (9%positive, (TPtr p1)); (10%positive, lo); (11%positive, lo); (12%positive, lo); (13%positive, lo); (14%positive, lo); (15%positive, lo); (16%positive, lo); (17%positive, lo); (18%positive, lo); (19%positive, lo); (20%positive, lo); (21%positive, lo); (22%positive, lo)];
   Entry f_compute_sbox (Sig [lo] lo)
     [(1%positive, lo); (2%positive, lo); (3%positive, lo); (4%positive, lo)];
   Entry f_contains_zero (Sig [(TPtr p1)] lo)
     [(1%positive, (TPtr p1))];
   Entry f_create_tree (Sig [(TPtr p7); (TPtr p1); lo] lo)
     [(1%positive, (TPtr p7)); (2%positive, (TPtr p1)); (3%positive, lo); (4%positive, (TPtr p7)); (5%positive, (TPtr p5)); (6%positive, (TPtr p1)); (7%positive, (TPtr p1)); (8%positive, lo); (9%positive, lo); (10%positive, (TPtr p1))];
   Entry f_dsignature_a_tilde (Sig [(TPtr p0); (TPtr p1)] (TPtr p0))
     [(1%positive, (TPtr p0)); (2%positive, (TPtr p1)); (3%positive, lo); (4%positive, lo); (5%positive, lo); (6%positive, lo)];
   Entry f_dsignature_c (Sig [(TPtr p0); lo; (TPtr p1)] (TPtr p0))
     [(1%positive, (TPtr p0)); (2%positive, lo); (3%positive, (TPtr p1)); (4%positive, lo); (5%positive, lo); (6%positive, lo)];
   Entry f_dsignature_chall_3 (Sig [(TPtr p0); (TPtr p1)] (TPtr p0))
     [(1%positive, (TPtr p0)); (2%positive, (TPtr p1)); (3%positive, lo)];
   Entry f_dsignature_com (Sig [(TPtr p0); lo; (TPtr p1)] (TPtr p0))
     [(1%positive, (TPtr p0)); (2%positive, lo); (3%positive, (TPtr p1)); (4%positive, lo); (5%positive, lo); (6%positive, lo); (7%positive, lo); (8%positive, lo)];
   Entry f_dsignature_d (Sig [(TPtr p0); (TPtr p1)] (TPtr p0))
     [(1%positive, (TPtr p0)); (2%positive, (TPtr p1)); (3%positive, lo); (4%positive, lo); (5%positive, lo); (6%positive, lo)];
   Entry f_dsignature_iv (Sig [(TPtr p0); (TPtr p1)] (TPtr p0))
     [(1%positive, (TPtr p0)); (2%positive, (TPtr p1))];
   Entry f_dsignature_pdec (Sig [(TPtr p0); lo; (TPtr p1)] (TPtr p0))
     [(1%positive, (TPtr p0)); (2%positive, lo); (3%positive, (TPtr p1)); (4%positive, lo); (5%positive, lo); (6%positive, lo); (7%positive, lo); (8%positive, lo)];
   Entry f_dsignature_u_tilde (Sig [(TPtr p0); (TPtr p1)] (TPtr p0))
     [(1%positive, (TPtr p0)); (2%positive, (TPtr p1)); (3%positive, lo); (4%positive, lo); (5%positive, lo)];
   Entry f_em_enc_backward_128 (Sig [(TPtr p1); (TPtr p0); (TPtr p1); lo; lo; (TPtr p0); (TPtr p1)] lo)
     [(1%positive, (TPtr p1)); (2%positive, (TPtr p0)); (3%positive, (TPtr p1)); (4%positive, lo); (5%positive, lo); (6%positive, (TPtr p0)); (7%positive, (TPtr p1)); (8%positive, (TPtr p1)); (9%positive, (TPtr p1)); (10%positive, (TPtr p1)); (11%positive, (TPtr p1)); (12%positive, (TPtr p1)); (13%positive, lo); (14%positive, (TPtr p1)); (15%positive, lo); (16%positive, lo); (17%positive, lo); (18%positive, lo); (19%positive, lo); (20%positive, lo); (21%positive, (TPtr p1)); (22%positive, lo); (23%positive, lo); (24%positive, lo); (25%positive, (TPtr p1)); (26%positive, (TPtr p1)); (27%positive, (TPtr p1)); (28%positive, (TPtr p0)); (29%positive, lo); (30%positive, lo); (31%positive, (TPtr p1)); (32%positive, lo); (33%positive, (TPtr p1)); (34%positive, (TPtr p1)); (35%positive, (TPtr p1)); (36%positive, (TPtr p1)); (37%positive, lo); (38%positive, lo); (39%positive, lo); (40%positive, lo); (41%positive, (TPtr p1)); (42%positive, (TPtr p1)); (43%positive, lo); (44%positive, lo); (45%positive, (TPtr p1)); (46%positive, (TPtr p1))];
   Entry f_em_enc_backward_128 (Sig [(TPtr p1); (TPtr p1); (TPtr p1); lo; lo; (TPtr p0); (TPtr p1)] lo)
     [(1%positive, (TPtr p1)); (2%positive, (TPtr p1)); (3%positive, (TPtr p1)); (4%positive, lo); (5%positive, lo); (6%positive, (TPtr p0)); (7%positive, (TPtr p1)); (8%positive, (TPtr p1)); (9%positive, (TPtr p1)); (10%positive, (TPtr p1)); (11%positive, (TPtr p1)); (12%positive, (TPtr p1)); (13%positive, lo); (14%positive, (TPtr p1)); (15%positive, lo); (16%positive, lo); (17%positive, lo); (18%positive, lo); (19%positive, lo); (20%positive, lo); (21%positive, (TPtr p1)); (22%positive, lo); (23%positive, lo); (24%positive, lo); (25%positive, (TPtr p1)); (26%positive, (TPtr p1)); (27%positive, (TPtr p1)); (28%positive, (TPtr p1)); (29%positive, lo); (30%positive, lo); (31%positive, (TPtr p1)); (32%positive, lo); (33%positive, (TPtr p1)); (34%positive, (TPtr p1)); (35%positive, (TPtr p1)); (36%positive, (TPtr p1)); (37%positive, lo); (38%positive, lo); (39%positive, lo); (40%positive, lo); (41%positive, (TPtr p1)); (42%positive, (TPtr p1)); (43%positive, lo); (44%positive, lo); (45%positive, (TPtr p1)); (46%positive, (TPtr p1))];
   Entry f_em_enc_backward_128_1 (Sig [(TPtr p1); (TPtr p1); (TPtr p1); (TPtr p1)] lo)
     [(1%positive, (TPtr p1)); (2%positive, (TPtr p1)); (3%positive, (TPtr p1)); (4%positive, (TPtr p1)); (5%positive, lo); (6%positive, lo); (7%positive, lo); (8%positive, lo); (9%positive, lo); (10%positive, lo); (11%positive, lo); (12%positive, lo); (13%positive, lo); (14%positive, lo); (15%positive, (TPtr p1)); (16%positive, (TPtr p1))];
   Entry f_em_enc_backward_192 (Sig [(TPtr p1); (TPtr p0); (TPtr p1); lo; lo; (TPtr p0); (TPtr p1)] lo)
     [(1%positive, (TPtr p1)); (2%positive, (TPtr p0)); (3%positive, (TPtr p1)); (4%positive, lo); (5%positive, lo); (6%positive, (TPtr p0)); (7%positive, (TPtr p1)); (8%positive, (TPtr p1)); (9%positive, (TPtr p1)); (10%positive, (TPtr p1)); (11%positive, (TPtr p1)); (12%positive, (TPtr p1)); (13%positive, lo); (14%positive, (TPtr p1)); (15%positive, lo); (16%positive, lo); (17%positive, lo); (18%positive, lo); (19%positive, lo); (20%positive, lo); (21%positive, lo); (22%positive, lo); (23%positive, (TPtr p1)); (24%positive, lo); (25%positive, lo); (26%positive, lo); (27%positive, (TPtr p1)); (28%positive, (TPtr p1)); (29%positive, (TPtr p1)); (30%positive, (TPtr p0)); (31%positive, lo); (32%positive, lo); (33%positive, lo); (34%positive, lo); (35%positive, (TPtr p1)); (36%positive, lo); (37%positive, (TPtr p1)); (38%positive, (TPtr p1)); (39%positive, (TPtr p1)); (40%positive, (TPtr p1)); (41%positive, lo); (42%positive, lo); (43%positive, lo); (44%positive, lo); (45%positive, lo); (46%positive, lo); (47%positive, lo); (48%positive, lo); (49%positive, (TPtr p1)); (50%positive, (TPtr p1)); (51%positive, lo); (52%positive, lo); (53%positive, lo); (54%positive, lo); (55%positive, (TPtr p1)); (56%positive, (TPtr p1))];
   Entry f_em_enc_backward_192 (Sig [(TPtr p1); (TPtr p1); (TPtr p1); lo; lo; (TPtr p0); (TPtr p1)] lo)
     [(1%positive, (TPtr p1)); (2%positive, (TPtr p1)); (3%positive, (TPtr p1)); (4%positive, lo); (5%positive, lo); (6%positive, (TPtr p0)); (7%positive, (TPtr p1)); (8%positive, (TPtr p1)); (9%positive, (TPtr p1)); (10%positive, (TPtr p1)); (11%positive, (TPtr p1)); (12%positive, (TPtr p1)); (13%positive, lo); (14%positive, (TPtr p1)); (15%positive, lo); (16%positive, lo); (17%positive, lo); (18%positive, lo); (19%positive, lo); (20%positive, lo); (21%positive, lo); (22%positive, lo); (23%positive, (TPtr p1)); (24%positive, lo); (25%positive, lo); (26%positive, lo); (27%positive, (TPtr p1)); (28%positive, (TPtr p1)); (29%positive, (TPtr p1)); (30%positive, (TPtr p1)); (31%positive, lo); (32%positive, lo); (33%positive, lo); (34%positive, lo); (35%positive, (TPtr p1)); (36%positive, lo); (37%positive, (TPtr p1)); (38%positive, (TPtr p1)); (39%positive, (TPtr p1)); (40%positive, (TPtr p1)); (41%positive, lo); (42%positive, lo); (43%positive, lo); (44%positive, lo); (45%positive, lo); (46%positive, lo); (47%positive, lo); (48%positive, lo); (49%positive, (TPtr p1)); (50%positive, (TPtr p1)); (51%positive, lo); (52%positive, lo); (53%positive, lo); (54%positive, lo); (55%positive, (TPtr p1)); (56%positive, (TPtr p1))];
   Entry f_em_enc_backward_192_1 (Sig [(TPtr p1); (TPtr p1); (TPtr p1); (TPtr p1)] lo)
     [(1%positive, (TPtr p1)); (2%positive, (TPtr p1)); (3%positive, (TPtr p1)); (4%positive, (TPtr p1)); (5%positive, lo); (6%positive, lo); (7%positive, lo); (8%positive, lo); (9%positive, lo); (10%positive, lo); (11%positive, lo); (12%positive, lo); (13%positive, lo); (14%positive, lo); (15%positive, (TPtr p1)); (16%positive, (TPtr p1))];
   Entry f_em_enc_backward_256 (Sig [(TPtr p1); (TPtr p0); (TPtr p1); lo; lo; (TPtr p0); (TPtr p1)] lo)
     [(1%positive, (TPtr p1)); (2%positive, (TPtr p0)); (3%positive, (TPtr p1)); (4%positive, lo); (5%positive, lo); (6%positive, (TPtr p0)); (7%positive, (TPtr p1)); (8%positive, (TPtr p1)); (9%positive, (TPtr p1)); (10%positive, (TPtr p1)); (11%positive, (TPtr p1)); (12%positive, (TPtr p1)); (13%positive, lo); (14%positive, (TPtr p1)); (15%positive, lo); (16%positive, lo); (17%positive, lo); (18%positive, lo); (19%positive, lo); (20%positive, lo); (21%positive, lo); (22%positive, lo); (23%positive, (TPtr p1)); (24%positive, lo); (25%positive, lo); (26%positive, lo); (27%positive, (TPtr p1)); (28%positive, (TPtr p1)); (29%positive, (TPtr p1)); (30%positive, (TPtr p0)); (31%positive, lo); (32%positive, lo); (33%positive, lo); (34%positive, lo); (35%positive, (TPtr p1)); (36%positive, lo); (37%positive, (TPtr p1)); (38%positive, (TPtr p1)); (39%positive, (TPtr p1)); (40%positive, (TPtr p1)); (41%positive, lo); (42%positive, lo); (43%positive, lo); (44%positive, lo); (45%positive, lo); (46%positive, lo); (47%positive, lo); (48%positive, lo); (49%positive, (TPtr p1)); (50%positive, (TPtr p1)); (51%positive, lo); (52%positive, lo); (53%positive, lo); (54%positive, lo); (55%positive, (TPtr p1)); (56%positive, (TPtr p1))];
   Entry f_em_enc_backward_256 (Sig [(TPtr p1); (TPtr p1); (TPtr p1); lo; lo; (TPtr p0); (TPtr p1)] lo)
     [(1%positive, (TPtr p1)); (2%positive, (TPtr p1)); (3%positive, (TPtr p1)); (4%positive, lo); (5%positive, lo); (6%positive, (TPtr p0)); (7%positive, (TPtr p1)); (8%positive, (TPtr p1)); (9%positive, (TPtr p1)); (10%positive, (TPtr p1)); (11%positive, (TPtr p1)); (12%positive, (TPtr p1)); (13%positive, lo); (14%positive, (TPtr p1)); (15%positive, lo); (16%positive, lo); (17%positive, lo); (18%positive, lo); (19%positive, lo); (20%positive, lo); (21%positive, lo); (22%positive, lo); (23%positive, (TPtr p1)); (24%positive, lo); (25%positive, lo); (26%positive, lo); (27%positive, (TPtr p1)); (28%positive, (TPtr p1)); (29%positive, (TPtr p1)); (30%positive, (TPtr p1)); (31%positive, lo); (32%positive, lo); (33%positive, lo); (34%positive, lo); (35%positive, (TPtr p1)); (36%positive, lo); (37%positive, (TPtr p1)); (38%positive, (TPtr p1)); (39%positive, (TPtr p1)); (40%positive, (TPtr p1)); (41%positive, lo); (42%positive, lo); (43%positive, lo); (44%positive, lo); (45%positive, lo); (46%positive, lo); (47%positive, lo); (48%positive, lo); (49%positive, (TPtr p1)); (50%positive, (TPtr p1)); (51%positive, lo); (52%positive, lo); (53%positive, lo); (54%positive, lo); (55%positive, (TPtr p1)); (56%positive, (TPtr p1))];
   Entry f_em_enc_backward_256_1 (Sig [(TPtr p1); (TPtr p1); (TPtr p1); (TPtr p1)] lo)
     [(1%positive, (TPtr p1)); (2%positive, (TPtr p1)); (3%positive, (TPtr p1)); (4%positive, (TPtr p1)); (5%positive, lo); (6%positive, lo); (7%positive, lo); (8%positive, lo); (9%positive, lo); (10%positive, lo); (11%positive, lo); (12%positive, lo); (13%positive, lo); (14%positive, lo); (15%positive, (TPtr p1)); (16%positive, (TPtr p1))];
   Entry f_em_enc_constraints_Mkey_0_128 (Sig [(TPtr p1); (TPtr p1); (TPtr p1); (TPtr p1); (TPtr p6); (TPtr p6)] lo)
     [(1%positive, (TPtr p1)); (2%positive, (TPtr p1)); (3%positive, (TPtr p1)); (4%positive, (TPtr p1)); (5%positive, (TPtr p6)); (6%positive, (TPtr p6)); (7%positive, (TPtr p1)); (8%positive, (TPtr p1)); (9%positive, (TPtr p1)); (10%positive, (TPtr p1)); (11%positive, (TPtr p1)); (12%positive, lo); (13%positive, (TPtr p1)); (14%positive, (TPtr p1)); (15%positive, (TPtr p1)); (16%positive, (TPtr p1)); (17%positive, lo); (18%positive, lo); (19%positive, (TPtr p1)); (20%positive, (TPtr p1)); (21%positive, (TPtr p1)); (22%positive, lo); (23%positive, lo); (24%positive, (TPtr p1)); (25%positive, (TPtr p1)); (26%positive, (TPtr p1)); (27%positive, lo); (28%positive, lo)];
   Entry f_em_enc_constraints_Mkey_0_192 (Sig [(TPtr p1); (TPtr p1); (TPtr p1); (TPtr p1); (TPtr p6); (TPtr p6)] lo)
     [(1%positive, (TPtr p1)); (2%positive, (TPtr p1)); (3%positive, (TPtr p1)); (4%positive, (TPtr p1)); (5%positive, (TPtr p6)); (6%positive, (TPtr p6)); (7%positive, (TPtr p1)); (8%positive, (TPtr p1)); (9%positive, (TPtr p1)); (10%positive, (TPtr p1)); (11%positive, (TPtr p1)); (12%positive, lo); (13%positive, (TPtr p1)); (14%positive, (TPtr p1)); (15%positive, (TPtr p1)); (16%positive, (TPtr p1)); (17%positive, lo); (18%positive, lo); (19%positive, lo); (20%positive, lo); (21%positive, (TPtr p1)); (22%positive, (TPtr p1)); (23%positive, (TPtr p1)); (24%positive, lo); (25%positive, lo); (26%positive, lo); (27%positive, lo); (28%positive, (TPtr p1)); (29%positive, (TPtr p1)); (30%positive, (TPtr p1)); (31%positive, lo); (32%positive, lo); (33%positive, lo); (34%positive, lo)];
   Entry f_em_enc_constraints_Mkey_0_256 (Sig [(TPtr p1); (TPtr p1); (TPtr p1); (TPtr p1); (TPtr p6); (TPtr p6)] lo)
     [(1%positive, (TPtr p1)); (2%positive, (TPtr p1)); (3%positive, (TPtr p1)); (4%positive, (TPtr p1)); (5%positive, (TPtr p6)); (6%positive, (TPtr p6)); (7%positive, (TPtr p1)); (8%positive, (TPtr p1)); (9%positive, (TPtr p1)); (10%positive, (TPtr p1)); (11%positive, (TPtr p1)); (12%positive, lo); (13%positive, (TPtr p1)); (14%positive, (TPtr p1)); (15%positive, (TPtr p1)); (16%positive, (TPtr p1)); (17%positive, lo); (18%positive, lo); (19%positive, lo); (20%positive, lo); (21%positive, (TPtr p1)); (22%positive, (TPtr p1)); (23%positive, (TPtr p1)); (24%positive, lo); (25%positive, lo); (26%positive, lo); (27%positive, lo); (28%positive, (TPtr p1)); (29%positive, (TPtr p1)); (30%positive, (TPtr p1)); (31%positive, lo); (32%positive, lo); (33%positive, lo); (34%positive, lo)];
   Entry f_em_enc_constraints_Mkey_1_128 (Sig [(TPtr p0); (TPtr p1); (TPtr p1); (TPtr p0); (TPtr p6)] lo)
     [(1%positive, (TPtr p0)); (2%positive, (TPtr p1)); (3%positive, (TPtr p1)); (4%positive, (TPtr p0)); (5%positive, (TPtr p6)); (6%positive, (TPtr p1)); (7%positive, (TPtr p1)); (8%positive, (TPtr p1)); (9%positive, lo); (10%positive, (TPtr p1)); (11%positive, lo); (12%positive, lo); (13%positive, lo); (14%positive, (TPtr p1)); (15%positive, (TPtr p1)); (16%positive, lo); (17%positive, (TPtr p1)); (18%positive, lo); (19%positive, (TPtr p1)); (20%positive, lo); (21%positive, lo); (22%positive, (TPtr p1)); (23%positive, (TPtr p1)); (24%positive, (TPtr p1)); (25%positive, lo); (26%positive, (TPtr p1)); (27%positive, (TPtr p1)); (28%positive, lo); (29%positive, lo)];
   Entry f_em_enc_constraints_Mkey_1_192 (Sig [(TPtr p0); (TPtr p1); (TPtr p1); (TPtr p0); (TPtr p6)] lo)
     [(1%positive, (TPtr p0)); (2%positive, (TPtr p1)); (3%positive, (TPtr p1)); (4%positive, (TPtr p0)); (5%positive, (TPtr p6)); (6%positive, (TPtr p1)); (7%positive, (TPtr p1)); (8%positive, (TPtr p1)); (9%positive, lo); (10%positive, (TPtr p1)); (11%positive, lo); (12%positive, lo); (13%positive, lo); (14%positive, lo); (15%positive, lo); (16%positive, (TPtr p1)); (17%positive, (TPtr p1)); (18%positive, lo); (19%positive, (TPtr p1)); (20%positive, lo); (21%positive, (TPtr p1)); (22%positive, lo); (23%positive, lo); (24%positive, lo); (25%positive, lo); (26%positive, (TPtr p1)); (27%positive, (TPtr p1)); (28%positive, (TPtr p1)); (29%positive, lo); (30%positive, (TPtr p1)); (31%positive, (TPtr p1)); (32%positive, lo); (33%positive, lo); (34%positive, lo); (35%positive, lo)];
   Entry f_em_enc_constraints_Mkey_1_256 (Sig [(TPtr p0); (TPtr p1); (TPtr p1); (TPtr p0); (TPtr p6)] lo)
     [(1%positive, (TPtr p0)); (2%positive, (TPtr p1)); (3%positive, (TPtr p1)); (4%positive, (TPtr p0)); (5%positive, (TPtr p6)); (6%positive, (TPtr p1)); (7%positive, (TPtr p1)); (8%positive, (TPtr p1)); (9%positive, lo); (10%positive, (TPtr p1)); (11%positive, lo); (12%positive, lo); (13%positive, lo); (14%positive, lo); (15%positive, lo); (16%positive, (TPtr p1)); (17%positive, (TPtr p1)); (18%positive, lo); (19%positive, (TPtr p1)); (20%positive, lo); (21%positive, (TPtr p1)); (22%positive, lo); (23%positive, lo); (24%positive, lo); (25%positive, lo); (26%positive, (TPtr p1)); (27%positive, (TPtr p1)); (28%positive, (TPtr p1)); (29%positive, lo); (30%positive, (TPtr p1)); (31%positive, (TPtr p1)); (32%positive, lo); (33%positive, lo); (34%positive, lo); (35%positive, lo)];
   Entry f_em_enc_forward_128 (Sig [(TPtr p1); (TPtr p0); (TPtr p1)] lo)
     [(1%positive, (TPtr p1)); (2%positive, (TPtr p0)); (3%positive, (TPtr p1)); (4%positive, lo); (5%positive, (TPtr p1)); (6%positive, (TPtr p1)); (7%positive, (TPtr p1)); (8%positive, (TPtr p1)); (9%positive, (TPtr p1)); (10%positive, lo); (11%positive, lo); (12%positive, (TPtr p1)); (13%positive, (TPtr p1)); (14%positive, lo); (15%positive, lo); (16%positive, lo); (17%positive, lo); (18%positive, (TPtr p1)); (19%positive, (TPtr p1)); (20%positive, lo); (21%positive, (TPtr p1)); (22%positive, (TPtr p1)); (23%positive, (TPtr p1)); (24%positive, (TPtr p1)); (25%positive, (TPtr p1)); (26%positive, (TPtr p1)); (27%positive, (TPtr p1)); (28%positive, (TPtr p1)); (29%positive, (TPtr p1)); (30%positive, lo); (31%positive, lo); (32%positive, (TPtr p1)); (33%positive, (TPtr p1)); (34%positive, (TPtr p1)); (35%positive, lo); (36%positive, lo); (37%positive, (TPtr p1)); (38%positive, (TPtr p1)); (39%positive, (TPtr p1)); (40%positive, lo); (41%positive, lo); (42%positive, (TPtr p1)); (43%positive, (TPtr p1)); (44%positive, lo); (45%positive, lo); (46%positive, (TPtr p1)); (47%positive, (TPtr p1)); (48%positive, lo); (49%positive, lo); (50%positive, (TPtr p1)); (51%positive, (TPtr p1)); (52%positive, (TPtr p1)); (53%positive, lo); (54%positive, lo); (55%positive, (TPtr p1)); (56%positive, (TPtr p1)); (57%positive, (TPtr p1)); (58%positive, lo); (59%positive, lo); (60%positive, (TPtr p1)); (61%positive, (TPtr p1)); (62%positive, (TPtr p1)); (63%positive, lo); (64%positive, lo); (65%positive, (TPtr p1)); (66%positive, (TPtr p1)); (67%positive, lo); (68%positive, lo); (69%positive, (TPtr p1)); (70%positive, (TPtr p1)); (71%positive, (TPtr p1)); (72%positive, lo); (73%positive, lo); (74%positive, (TPtr p1)); (75%positive, (TPtr p1)); (76%positive, (TPtr p1)); (77%positive, lo); (78%positive, lo); (79%positive, (TPtr p1)); (80%positive, (TPtr p1)); (81%positive, (TPtr p1)); (82%positive, lo); (83%positive, lo); (84%positive, (TPtr p1)); (85%positive, (TPtr p1)); (86%positive, (TPtr p1)); (87%positive, lo); (88%positive, lo); (89%positive, (TPtr p1)); (90%positive, (TPtr p1)); (91%positive, (TPtr p1)); (92%positive, lo); (93%positive, lo); (94%positive, (TPtr p1)); (95%positive, (TPtr p1)); (96%positive, (TPtr p1)); (97%positive, lo); (98%positive, lo); (99%positive, (TPtr p1)); (100%positive, (TPtr p1)); (101%positive, (TPtr p1)); (102%positive, lo); (103%positive, lo)];
   Entry f_em_enc_forward_128 (Sig [(TPtr p1); (TPtr p1); (TPtr p1)] lo)
     [(1%positive, (TPtr p1)); (2%positive, (TPtr p1)); (3%positive, (TPtr p1)); (4%positive, lo); (5%positive, (TPtr p1)); (6%positive, (TPtr p1)); (7%positive, (TPtr p1)); (8%positive, (TPtr p1)); (9%positive, (TPtr p1)); (10%positive, lo); (11%positive, lo); (12%positive, (TPtr p1)); (13%positive, (TPtr p1)); (14%positive, lo); (15%positive, lo); (16%positive, lo); (17%positive, lo); (18%positive, (TPtr p1)); (19%positive, (TPtr p1)); (20%positive, lo); (21%positive, (TPtr p1)); (22%positive, (TPtr p1)); (23%positive, (TPtr p1)); (24%positive, (TPtr p1)); (25%positive, (TPtr p1)); (26%positive, (TPtr p1)); (27%positive, (TPtr p1)); (28%positive, (TPtr p1)); (29%positive, (TPtr p1)); (30%positive, lo); (31%positive, lo); (32%positive, (TPtr p1)); (33%positive, (TPtr p1)); (34%positive, (TPtr p1)); (35%positive, lo); (36%positive, lo); (37%positive, (TPtr p1)); (38%positive, (TPtr p1)); (39%positive, (TPtr p1)); (40%positive, lo); (41%positive, lo); (42%positive, (TPtr p1)); (43%positive, (TPtr p1)); (44%positive, lo); (45%positive, lo); (46%positive, (TPtr p1)); (47%positive, (TPtr p1)); (48%positive, lo); (49%positive, lo); (50%positive, (TPtr p1)); (51%positive, (TPtr p1)); (52%positive, (TPtr p1)); (53%positive, lo); (54%positive, lo); (55%positive, (TPtr p1)); (56%positive, (TPtr p1)); (57%positive, (TPtr p1)); (58%positive, lo); (59%positive, lo); (60%positive, (TPtr p1)); (61%positive, (TPtr p1)); (62%positive, (TPtr p1)); (63%positive, lo); (64%positive, lo); (65%positive, (TPtr p1)); (66%positive, (TPtr p1)); (67%positive, lo); (68%positive, lo); (69%positive, (TPtr p1)); (70%positive, (TPtr p1)); (71%positive, (TPtr p1)); (72%positive, lo); (73%positive, lo); (74%positive, (TPtr p1)); (75%positive, (TPtr p1)); (76%positive, (TPtr p1)); (77%positive, lo); (78%positive, lo); (79%positive, (TPtr p1)); (80%positive, (TPtr p1)); (81%positive, (TPtr p1)); (82%positive, lo); (83%positive, lo); (84%positive, (TPtr p1)); (85%positive, (TPtr p1)); (86%positive, (TPtr p1)); (87%positive, lo); (88%positive, lo); (89%positive, (TPtr p1)); (90%positive, (TPtr p1)); (91%positive, (TPtr p1)); (92%positive, lo); (93%positive, lo); (94%positive, (TPtr p1)); (95%positive, (TPtr p1)); (96%positive, (TPtr p1)); (97%positive, lo); (98%positive, lo); (99%positive, (TPtr p1)); (100%positive, (TPtr p1)); (101%positive, (TPtr p1)); (102%positive, lo); (103%positive, lo)];
   Entry f_em_enc_forward_128_1 (Sig [(TPtr p1); (TPtr p1); (TPtr p1)] lo)
     [(1%positive, (TPtr p1)); (2%positive, (TPtr p1)); (3%positive, (TPtr p1)); (4%positive, lo); (5%positive, (TPtr p1)); (6%positive, (TPtr p1)); (7%positive, (TPtr p1)); (8%positive, lo); (9%positive, lo); (10%positive, (TPtr p1)); (11%positive, (TPtr p1)); (12%positive, lo); (13%positive, lo); (14%positive, lo); (15%positive, lo); (16%positive, (TPtr p1)); (17%positive, (TPtr p1)); (18%positive, lo); (19%positive, (TPtr p1)); (20%positive, (TPtr p1)); (21%positive, (TPtr p1)); (22%positive, (TPtr p1)); (23%positive, (TPtr p1)); (24%positive, (TPtr p1)); (25%positive, (TPtr p1)); (26%positive, lo); (27%positive, lo); (28%positive, (TPtr p1)); (29%positive, (TPtr p1)); (30%positive, (TPtr p1)); (31%positive, lo); (32%positive, lo); (33%positive, (TPtr p1)); (34%positive, (TPtr p1)); (35%positive, (TPtr p1)); (36%positive, lo); (37%positive, lo); (38%positive, (TPtr p1)); (39%positive, (TPtr p1)); (40%positive, lo); (41%positive, lo); (42%positive, (TPtr p1)); (43%positive, (TPtr p1)); (44%positive, lo); (45%positive, lo); (46%positive, (TPtr p1)); (47%positive, (TPtr p1)); (48%positive, (TPtr p1)); (49%positive, lo); (50%positive, lo); (51%positive, (TPtr p1)); (52%positive, (TPtr p1)); (53%positive, (TPtr p1)); (54%positive, lo); (55%positive, lo); (56%positive, (TPtr p1)); (57%positive, (TPtr p1)); (58%positive, (TPtr p1)); (59%positive, lo); (60%positive, lo); (61%positive, (TPtr p1)); (62%positive, (TPtr p1)); (63%positive, lo); (64%positive, lo); (65%positive, (TPtr p1)); (66%positive, (TPtr p1)); (67%positive, (TPtr p1)); (68%positive, lo); (69%positive, lo); (70%positive, (TPtr p1)); (71%positive, (TPtr p1)); (72%positive, (TPtr p1)); (73%positive, lo); (74%positive, lo); (75%positive, (TPtr p1)); (76%positive, (TPtr p1)); (77%positive, (TPtr p1)); (78%positive, lo); (79%positive, lo); (80%positive, (TPtr p1)); (81%positive, (TPtr p1)); (82%positive, (TPtr p1)); (83%positive, lo); (84%positive, lo); (85%positive, (TPtr p1)); (86%positive, (TPtr p1)); (87%positive, (TPtr p1)); (88%positive, lo); (89%positive, lo); (90%positive, (TPtr p1)); (91%positive, (TPtr p1)); (92%positive, (TPtr p1)); (93%positive, lo); (94%positive, lo); (95%positive, (TPtr p1)); (96%positive, (TPtr p1)); (97%positive, (TPtr p1)); (98%positive, lo); (99%positive, lo)];
   Entry f_em_enc_forward_192 (Sig [(TPtr p1); (TPtr p0); (TPtr p1)] lo)
     [(1%positive, (TPtr p1)); (2%positive, (TPtr p0)); (3%positive, (TPtr p1)); (4%positive, lo); (5%positive, (TPtr p1)); (6%positive, (TPtr p1)); (7%positive, (TPtr p1)); (8%positive, (TPtr p1)); (9%positive, (TPtr p1)); (10%positive, lo); (11%positive, lo); (12%positive, lo); (13%positive, lo); (14%positive, (TPtr p1)); (15%positive, (TPtr p1)); (16%positive, lo); (17%positive, lo); (18%positive, lo); (19%positive, lo); (20%positive, (TPtr p1)); (21%positive, (TPtr p1)); (22%positive, lo); (23%positive, (TPtr p1)); (24%positive, (TPtr p1)); (25%positive, (TPtr p1)); (26%positive, (TPtr p1)); (27%positive, (TPtr p1)); (28%positive, (TPtr p1)); (29%positive, (TPtr p1)); (30%positive, (TPtr p1)); (31%positive, (TPtr p1)); (32%positive, lo); (33%positive, lo); (34%positive, lo); (35%positive, lo); (36%positive, (TPtr p1)); (37%positive, (TPtr p1)); (38%positive, (TPtr p1)); (39%positive, lo); (40%positive, lo); (41%positive, lo); (42%positive, lo); (43%positive, (TPtr p1)); (44%positive, (TPtr p1)); (45%positive, (TPtr p1)); (46%positive, lo); (47%positive, lo); (48%positive, lo); (49%positive, lo); (50%positive, (TPtr p1)); (51%positive, (TPtr p1)); (52%positive, lo); (53%positive, lo); (54%positive, lo); (55%positive, lo); (56%positive, (TPtr p1)); (57%positive, (TPtr p1)); (58%positive, lo); (59%positive, lo); (60%positive, lo); (61%positive, lo); (62%positive, (TPtr p1)); (63%positive, (TPtr p1)); (64%positive, (TPtr p1)); (65%positive, lo); (66%positive, lo); (67%positive, lo); (68%positive, lo); (69%positive, (TPtr p1)); (70%positive, (TPtr p1)); (71%positive, (TPtr p1)); (72%positive, lo); (73%positive, lo); (74%positive, lo); (75%positive, lo); (76%positive, (TPtr p1)); (77%positive, (TPtr p1)); (78%positive, (TPtr p1)); (79%positive, lo); (80%positive, lo); (81%positive, lo); (82%positive, lo); (83%positive, (TPtr p1)); (84%positive, (TPtr p1)); (85%positive, lo); (86%positive, lo); (87%positive, lo); (88%positive, lo); (89%positive, (TPtr p1)); (90%positive, (TPtr p1)); (91%positive, (TPtr p1)); (92%positive, lo); (93%positive, lo); (94%positive, lo); (95%positive, lo); (96%positive, (TPtr p1)); (97%positive, (TPtr p1)); (98%positive, (TPtr p1)); (99%positive, lo); (100%positive, lo); (101%positive, lo); (102%positive, lo); (103%positive, (TPtr p1)); (104%positive, (TPtr p1)); (105%positive, (TPtr p1)); (106%positive, lo); (107%positive, lo); (108%positive, lo); (109%positive, lo); (110%positive, (TPtr p1)); (111%positive, (TPtr p1)); (112%positive, (TPtr p1)); (113%positive, lo); (114%positive, lo); (115%positive, lo); (116%positive, lo); (117%positive, (TPtr p1)); (118%positive, (TPtr p1)); (119%positive, (TPtr p1)); (120%positive, lo); (121%positive, lo); (122%positive, lo); (123%positive, lo); (124%positive, (TPtr p1)); (125%positive, (TPtr p1)); (126%positive, (TPtr p1)); (127%positive, lo); (128%positive, lo); (129%positive, lo); (130%positive, lo); (131%positive, (TPtr p1)); (132%positive, (TPtr p1)); (133%positive, (TPtr p1)); (134%positive, lo); (135%positive, lo); (136%positive, lo); (137%positive, lo)];
   Entry f_em_enc_forward_192 (Sig [(TPtr p1); (TPtr p1); (TPtr p1)] lo)
     [(1%positive, (TPtr p1)); (2%positive, (TPtr p1)); (3%positive, (TPtr p1)); (4%positive, lo); (5%positive, (TPtr p1)); (6%positive, (TPtr p1)); (7%positive, (TPtr p1)); (8%positive, (TPtr p1)); (9%positive, (TPtr p1)); (10%positive, lo); (11%positive, lo); (12%positive, lo); (13%positive, lo); (14%positive, (TPtr p1)); (15%positive, (TPtr p1)); (16%positive, lo); (17%positive, lo); (18%positive, lo); (19%positive, lo); (20%positive, (TPtr p1)); (21%positive, (TPtr p1)); (22%positive, lo); (23%positive, (TPtr p1)); (24%positive, (TPtr p1)); (25%positive, (TPtr p1)); (26%positive, (TPtr p1)); (27%positive, (TPtr p1)); (28%positive, (TPtr p1)); (29%positive, (TPtr p1)); (30%positive, (TPtr p1)); (31%positive, (TPtr p1)); (32%positive, lo); (33%positive, lo); (34%positive, lo); (35%positive, lo); (36%positive, (TPtr p1)); (37%positive, (TPtr p1)); (38%positive, (TPtr p1)); (39%positive, lo); (40%positive, lo); (41%positive, lo); (42%positive, lo); (43%positive, (TPtr p1)); (44%positive, (TPtr p1)); (45%positive, (TPtr p1)); (46%positive, lo); (47%positive, lo); (48%positive, lo); (49%positive, lo); (50%positive, (TPtr p1)); (51%positive, (TPtr p1)); (52%positive, lo); (53%positive, lo); (54%positive, lo); (55%positive, lo); (56%positive, (TPtr p1)); (57%positive, (TPtr p1)); (58%positive, lo); (59%positive, lo); (60%positive, lo); (61%positive, lo); (62%positive, (TPtr p1)); (63%positive, (TPtr p1)); (64%positive, (TPtr p1)); (65%positive, lo); (66%positive, lo); (67%positive, lo); (68%positive, lo); (69%positive, (TPtr p1)); (70%positive, (TPtr p1)); (71%positive, (TPtr p1)); (72%positive, lo); (73%positive, lo); (74%positive, lo); (75%positive, lo); (76%positive, (TPtr p1)); (77%positive, (TPtr p1)); (78%positive, (TPtr p1)); (79%positive, lo); (80%positive, lo); (81%positive, lo); (82%positive, lo); (83%positive, (TPtr p1)); (84%positive, (TPtr p1)); (85%positive, lo); (86%positive, lo); (87%positive, lo); (88%positive, lo); (89%positive, (TPtr p1)); (90%positive, (TPtr p1)); (91%positive, (TPtr p1)); (92%positive, lo); (93%positive, lo); (94%positive, lo); (95%positive, lo); (96%positive, (TPtr p1)); (97%positive, (TPtr p1)); (98%positive, (TPtr p1)); (99%positive, lo); (100%positive, lo); (101%positive, lo); (102%positive, lo); (103%positive, (TPtr p1)); (104%positive, (TPtr p1)); (105%positive, (TPtr p1)); (106%positive, lo); (107%positive, lo); (108%positive, lo); (109%positive, lo); (110%positive, (TPtr p1)); (111%positive, (TPtr p1)); (112%positive, (TPtr p1)); (113%positive, lo); (114%positive, lo); (115%positive, lo); (116%positive, lo); (117%positive, (TPtr p1)); (118%positive, (TPtr p1)); (119%positive, (TPtr p1)); (120%positive, lo); (121%positive, lo); (122%positive, lo); (123%positive, lo); (124%positive, (TPtr p1)); (125%positive, (TPtr p1)); (126%positive, (TPtr p1)); (127%positive, lo); (128%positive, lo); (129%positive, lo); (130%positive, lo); (131%positive, (TPtr p1)); (132%positive, (TPtr p1)); (133%positive, (TPtr p1)); (134%positive, lo); (135%positive, lo); (136%positive, lo); (137%positive, lo)];
   Entry f_em_enc_forward_192_1 (Sig [(TPtr p1); (TPtr p1); (TPtr p1)] lo)
     [(1%positive, (TPtr p1)); (2%positive, (TPtr p1)); (3%positive, (TPtr p1)); (4%positive, lo); (5%positive, (TPtr p1)); (6%positive, (TPtr p1)); (7%positive, (TPtr p1)); (8%positive, lo); (9%positive, lo); (10%positive, lo); (11%positive, lo); (12%positive, (TPtr p1)); (13%positive, (TPtr p1)); (14%positive, lo); (15%positive, lo); (16%positive, lo); (17%positive, lo); (18%positive, (TPtr p1)); (19%positive, (TPtr p1)); (20%positive, lo); (21%positive, (TPtr p1)); (22%positive, (TPtr p1)); (23%positive, (TPtr p1)); (24%positive, (TPtr p1)); (25%positive, (TPtr p1)); (26%positive, (TPtr p1)); (27%positive, (TPtr p1)); (28%positive, lo); (29%positive, lo); (30%positive, lo); (31%positive, lo); (32%positive, (TPtr p1)); (33%positive, (TPtr p1)); (34%positive, (TPtr p1)); (35%positive, lo); (36%positive, lo); (37%positive, lo); (38%positive, lo); (39%positive, (TPtr p1)); (40%positive, (TPtr p1)); (41%positive, (TPtr p1)); (42%positive, lo); (43%positive, lo); (44%positive, lo); (45%positive, lo); (46%positive, (TPtr p1)); (47%positive, (TPtr p1)); (48%positive, lo); (49%positive, lo); (50%positive, lo); (51%positive, lo); (52%positive, (TPtr p1)); (53%positive, (TPtr p1)); (54%positive, lo); (55%positive, lo); (56%positive, lo); (57%positive, lo); (58%positive, (TPtr p1)); (59%positive, (TPtr p1)); (60%positive, (TPtr p1)); (61%positive, lo); (62%positive, lo); (63%positive, lo); (64%positive, lo); (65%positive, (TPtr p1)); (66%positive, (TPtr p1)); (67%positive, (TPtr p1)); (68%positive, lo); (69%positive, lo); (70%positive, lo); (71%positive, lo); (72%positive, (TPtr p1)); (73%positive, (TPtr p1)); (74%positive, (TPtr p1)); (75%positive, lo); (76%positive, lo); (77%positive, lo); (78%positive, lo); (79%positive, (TPtr p1)); (80%positive, (TPtr p1)); (81%positive, lo); (82%positive, lo); (83%positive, lo); (84%positive, lo); (85%positive, (TPtr p1)); (86%positive, (TPtr p1)); (87%positive, (TPtr p1)); (88%positive, lo); (89%positive, lo); (90%positive, lo); (91%positive, lo); (92%positive, (TPtr p1)); (93%positive, (TPtr p1)); (94%positive, (TPtr p1)); (95%positive, lo); (96%positive, lo); (97%positive, lo); (98%positive, lo); (99%positive, (TPtr p1)); (100%positive, (TPtr p1)); (101%positive, (TPtr p1)); (102%positive, lo); (103%positive, lo); (104%positive, lo); (105%positive, lo); (106%positive, (TPtr p1)); (107%positive, (TPtr p1)); (108%positive, (TPtr p1)); (109%positive, lo); (110%positive, lo); (111%positive, lo); (112%positive, lo); (113%positive, (TPtr p1)); (114%positive, (TPtr p1)); (115%positive, (TPtr p1)); (116%positive, lo); (117%positive, lo); (118%positive, lo); (119%positive, lo); (120%positive, (TPtr p1)); (121%positive, (TPtr p1)); (122%positive, (TPtr p1)); (123%positive, lo); (124%positive, lo); (125%positive, lo); (126%positive, lo); (127%positive, (TPtr p1)); (128%positive, (TPtr p1)); (129%positive, (TPtr p1)); (130%positive, lo); (131%positive, lo); (132%positive, lo); (133%positive, lo)];
   Entry f_em_enc_forward_256 (Sig [(TPtr p1); (TPtr p0); (TPtr p1)] lo)
     [(1%positive, (TPtr p1)); (2%positive, (TPtr p0)); (3%positive, (TPtr p1)); (4%positive, lo); (5%positive, (TPtr p1)); (6%positive, (TPtr p1)); (7%positive, (TPtr p1)); (8%positive, (TPtr p1)); (9%positive, (TPtr p1)); (10%positive, lo); (11%positive, lo); (12%positive, lo); (13%positive, lo); (14%positive, (TPtr p1)); (15%positive, (TPtr p1)); (16%positive, lo); (17%positive, lo); (18%positive, lo); (19%positive, lo); (20%positive, (TPtr p1)); (21%positive, (TPtr p1)); (22%positive, lo); (23%positive, (TPtr p1)); (24%positive, (TPtr p1)); (25%positive, (TPtr p1)); (26%positive, (TPtr p1)); (27%positive, (TPtr p1)); (28%positive, (TPtr p1)); (29%positive, (TPtr p1)); (30%positive, (TPtr p1)); (31%positive, (TPtr p1)); (32%positive, lo); (33%positive, lo); (34%positive, lo); (35%positive, lo); (36%positive, (TPtr p1)); (37%positive, (TPtr p1)); (38%positive, (TPtr p1)); (39%positive, lo); (40%positive, lo); (41%positive, lo); (42%positive, lo); (43%positive, (TPtr p1)); (44%positive, (TPtr p1)); (45%positive, (TPtr p1)); (46%positive, lo); (47%positive, lo); (48%positive, lo); (49%positive, lo); (50%positive, (TPtr p1)); (51%positive, (TPtr p1)); (52%positive, lo); (53%positive, lo); (54%positive, lo); (55%positive, lo); (56%positive, (TPtr p1)); (57%positive, (TPtr p1)); (58%positive, lo); (59%positive, lo); (60%positive, lo); (61%positive, lo); (62%positive, (TPtr p1)); (63%positive, (TPtr p1)); (64%positive, (TPtr p1)); (65%positive, lo); (66%positive, lo); (67%positive, lo); (68%positive, lo); (69%positive, (TPtr p1)); (70%positive, (TPtr p1)); (71%positive, (TPtr p1)); (72%positive, lo); (73%positive, lo); (74%positive, lo); (75%positive, lo); (76%positive, (TPtr p1)); (77%positive, (TPtr p1)); (78%positive, (TPtr p1)); (79%positive, lo); (80%positive, lo); (81%positive, lo); (82%positive, lo); (83%positive, (TPtr p1)); (84%positive, (TPtr p1)); (85%positive, lo); (86%positive, lo); (87%positive, lo); (88%positive, lo); (89%positive, (TPtr p1)); (90%positive, (TPtr p1)); (91%positive, (TPtr p1)); (92%positive, lo); (93%positive, lo); (94%positive, lo); (95%positive, lo); (96%positive, (TPtr p1)); (97%positive, (TPtr p1)); (98%positive, (TPtr p1)); (99%positive, lo); (100%positive, lo); (101%positive, lo); (102%positive, lo); (103%positive, (TPtr p1)); (104%positive, (TPtr p1)); (105%positive, (TPtr p1)); (106%positive, lo); (107%positive, lo); (108%positive, lo); (109%positive, lo); (110%positive, (TPtr p1)); (111%positive, (TPtr p1)); (112%positive, (TPtr p1)); (113%positive, lo); (114%positive, lo); (115%positive, lo); (116%positive, lo); (117%positive, (TPtr p1)); (118%positive, (TPtr p1)); (119%positive, (TPtr p1)); (120%positive, lo); (121%positive, lo); (122%positive, lo); (123%positive, lo); (124%positive, (TPtr p1)); (125%positive, (TPtr p1)); (126%positive, (TPtr p1)); (127%positive, lo); (128%positive, lo); (129%positive, lo); (130%positive, lo); (131%positive, (TPtr p1)); (132%positive, (TPtr p1)); (133%positive, (TPtr p1)); (134%positive, lo); (135%positive, lo); (136%positive, lo); (137%positive, lo)];
   Entry f_em_enc_forward_256 (Sig [(TPtr p1); (TPtr p1); (TPtr p1)] lo)
     [(1%positive, (TPtr p1)); (2%positive, (TPtr p1)); (3%positive, (TPtr p1)); (4%positive, lo); (5%positive, (TPtr p1)); (6%positive, (TPtr p1)); (7%positive, (TPtr p1)); (8%positive, (TPtr p1)); (9%positive, (TPtr p1)); (10%positive, lo); (11%positive, lo); (12%positive, lo); (13%positive, lo); (14%positive, (TPtr p1)); (15%positive, (TPtr p1)); (16%positive, lo); (17%positive, lo); (18%positive, lo); (19%positive, lo); (20%positive, (TPtr p1)); (21%positive, (TPtr p1)); (22%positive, lo); (23%positive, (TPtr p1)); (24%positive, (TPtr p1)); (25%positive, (TPtr p1)); (26%positive, (TPtr p1)); (27%positive, (TPtr p1)); (28%positive, (TPtr p1)); (29%positive, (TPtr p1)); (30%positive, (TPtr p1)); (31%positive, (TPtr p1)); (32%positive, lo); (33%positive, lo); (34%positive, lo); (35%positive, lo); (36%positive, (TPtr p1)); (37%positive, (TPtr p1)); (38%positive, (TPtr p1)); (39%positive, lo); (40%positive, lo); (41%positive, lo); (42%positive, lo); (43%positive, (TPtr p1)); (44%positive, (TPtr p1)); (45%positive, (TPtr p1)); (46%positive, lo); (47%positive, lo); (48%positive, lo); (49%positive, lo); (50%positive, (TPtr p1)); (51%positive, (TPtr p1)); (52%positive, lo); (53%positive, lo); (54%positive, lo); (55%positive, lo); (56%positive, (TPtr p1)); (57%positive, (TPtr p1)); (58%positive, lo); (59%positive, lo); (60%positive, lo); (61%positive, lo); (62%positive, (TPtr p1)); (63%positive, (TPtr p1)); (64%positive, (TPtr p1)); (65%positive, lo); (66%positive, lo); (67%positive, lo); (68%positive, lo); (69%positive, (TPtr p1)); (70%positive, (TPtr p1)); (71%positive, (TPtr p1)); (72%positive, lo); (73%positive, lo); (74%positive, lo); (75%positive, lo); (76%positive, (TPtr p1)); (77%positive, (TPtr p1)); (78%positive, (TPtr p1)); (79%positive, lo); (80%positive, lo); (81%positive, lo); (82%positive, lo); (83%positive, (TPtr p1)); (84%positive, (TPtr p1)); (85%positive, lo); (86%positive, lo); (87%positive, lo); (88%positive, lo); (89%positive, (TPtr p1)); (90%positive, (TPtr p1)); (91%positive, (TPtr p1)); (92%positive, lo); (93%positive, lo); (94%positive, lo); (95%positive, lo); (96%positive, (TPtr p1)); (97%positive, (TPtr p1)); (98%positive, (TPtr p1)); (99%positive, lo); (100%positive, lo); (101%positive, lo); (102%positive, lo); (103%positive, (TPtr p1)); (104%positive, (TPtr p1)); (105%positive, (TPtr p1)); (106%positive, lo); (107%positive, lo); (108%positive, lo); (109%positive, lo); (110%positive, (TPtr p1)); (111%positive, (TPtr p1)); (112%positive, (TPtr p1)); (113%positive, lo); (114%positive, lo); (115%positive, lo); (116%positive, lo); (117%positive, (TPtr p1)); (118%positive, (TPtr p1)); (119%positive, (TPtr p1)); (120%positive, lo); (121%positive, lo); (122%positive, lo); (123%positive, lo); (124%positive, (TPtr p1)); (125%positive, (TPtr p1)); (126%positive, (TPtr p1)); (127%positive, lo); (128%positive, lo); (129%positive, lo); (130%positive, lo); (131%positive, (TPtr p1)); (132%positive, (TPtr p1)); (133%positive, (TPtr p1)); (134%positive, lo); (135%positive, lo); (136%positive, lo); (137%positive, lo)];
   Entry f_em_enc_forward_256_1 (Sig [(TPtr p1); (TPtr p1); (TPtr p1)] lo)
     [(1%positive, (TPtr p1)); (2%positive, (TPtr p1)); (3%positive, (TPtr p1)); (4%positive, lo); (5%positive, (TPtr p1)); (6%positive, (TPtr p1)); (7%positive, (TPtr p1)); (8%positive, lo); (9%positive, lo); (10%positive, lo); (11%positive, lo); (12%positive, (TPtr p1)); (13%positive, (TPtr p1)); (14%positive, lo); (15%positive, lo); (16%positive, lo); (17%positive, lo); (18%positive, (TPtr p1)); (19%positive, (TPtr p1)); (20%positive, lo); (21%positive, (TPtr p1)); (22%positive, (TPtr p1)); (23%positive, (TPtr p1)); (24%positive, (TPtr p1)); (25%positive, (TPtr p1)); (26%positive, (TPtr p1)); (27%positive, (TPtr p1)); (28%positive, lo); (29%positive, lo); (30%positive, lo); (31%positive, lo); (32%positive, (TPtr p1)); (33%positive, (TPtr p1)); (34%positive, (TPtr p1)); (35%positive, lo); (36%positive, lo); (37%positive, lo); (38%positive, lo); (39%positive, (TPtr p1)); (40%positive, (TPtr p1)); (41%positive, (TPtr p1)); (42%positive, lo); (43%positive, lo); (44%positive, lo); (45%positive, lo); (46%positive, (TPtr p1)); (47%positive, (TPtr p1)); (48%positive, lo); (49%positive, lo); (50%positive, lo); (51%positive, lo); (52%positive, (TPtr p1)); (53%positive, (TPtr p1)); (54%positive, lo); (55%positive, lo); (56%positive, lo); (57%positive, lo); (58%positive, (TPtr p1)); (59%positive, (TPtr p1)); (60%positive, (TPtr p1)); (61%positive, lo); (62%positive, lo); (63%positive, lo); (64%positive, lo); (65%positive, (TPtr p1)); (66%positive, (TPtr p1)); (67%positive, (TPtr p1)); (68%positive, lo); (69%positive, lo); (70%positive, lo); (71%positive, lo); (72%positive, (TPtr p1)); (73%positive, (TPtr p1)); (74%positive, (TPtr p1)); (75%positive, lo); (76%positive, lo); (77%positive, lo); (78%positive, lo); (79%positive, (TPtr p1)); (80%positive, (TPtr p1)); (81%positive, lo); (82%positive, lo); (83%positive, lo); (84%positive, lo); (85%positive, (TPtr p1)); (86%positive, (TPtr p1)); (87%positive, (TPtr p1)); (88%positive, lo); (89%positive, lo); (90%positive, lo); (91%positive, lo); (92%positive, (TPtr p1)); (93%positive, (TPtr p1)); (94%positive, (TPtr p1)); (95%positive, lo); (96%positive, lo); (97%positive, lo); (98%positive, lo); (99%positive, (TPtr p1)); (100%positive, (TPtr p1)); (101%positive, (TPtr p1)); (102%positive, lo); (103%positive, lo); (104%positive, lo); (105%positive, lo); (106%positive, (TPtr p1)); (107%positive, (TPtr p1)); (108%positive, (TPtr p1)); (109%positive, lo); (110%positive, lo); (111%positive, lo); (112%positive, lo); (113%positive, (TPtr p1)); (114%positive, (TPtr p1)); (115%positive, (TPtr p1)); (116%positive, lo); (117%positive, lo); (118%positive, lo); (119%positive, lo); (120%positive, (TPtr p1)); (121%positive, (TPtr p1)); (122%positive, (TPtr p1)); (123%positive, lo); (124%positive, lo); (125%positive, lo); (126%positive, lo); (127%positive, (TPtr p1)); (128%positive, (TPtr p1)); (129%positive, (TPtr p1)); (130%positive, lo); (131%positive, lo); (132%positive, lo); (133%positive, lo)];
   Entry f_em_prove_128 (Sig [(TPtr p1); (TPtr p1); (TPtr p5); (TPtr p0); (TPtr p1); (TPtr p1); (TPtr p1); (TPtr p1)] lo)
     [(1%positive, (TPtr p1)); (2%positive, (TPtr p1)); (3%positive, (TPtr p5)); (4%positive, (TPtr p0)); (5%positive, (TPtr p1)); (6%positive, (TPtr p1)); (7%positive, (TPtr p1)); (8%positive, (TPtr p1)); (9%positive, (TPtr p1)); (10%positive, (TPtr p1)); (11%positive, lo); (12%positive, (TPtr p1)); (13%positive, lo); (14%positive, lo); (15%positive, (TPtr p1)); (16%positive, (TPtr p1)); (17%positive, (TPtr p6)); (18%positive, (TPtr p1)); (19%positive, (TPtr p1)); (20%positive, (TPtr p1)); (21%positive, (TPtr p1)); (22%positive, (TPtr p5)); (23%positive, (TPtr p6)); (24%positive, (TPtr p1)); (25%positive, (TPtr p1)); (26%positive, (TPtr p1)); (27%positive, (TPtr p1)); (28%positive, (TPtr p5)); (29%positive, (TPtr p1)); (30%positive, (TPtr p1))];
   Entry f_em_prove_192 (Sig [(TPtr p1); (TPtr p1); (TPtr p5); (TPtr p0); (TPtr p1); (TPtr p1); (TPtr p1); (TPtr p1)] lo)
     [(1%positive, (TPtr p1)); (2%positive, (TPtr p1)); (3%positive, (TPtr p5)); (4%positive, (TPtr p0)); (5%positive, (TPtr p1)); (6%positive, (TPtr p1)); (7%positive, (TPtr p1)); (8%positive, (TPtr p1)); (9%positive, (TPtr p1)); (10%positive, (TPtr p1)); (11%positive, lo); (12%positive, (TPtr p1)); (13%positive, lo); (14%positive, lo); (15%positive, (TPtr p1)); (16%positive, (TPtr p1)); (17%positive, (TPtr p6)); (18%positive, (TPtr p1)); (19%positive, (TPtr p1)); (20%positive, (TPtr p1)); (21%positive, (TPtr p1)); (22%positive, (TPtr p5)); (23%positive, (TPtr p6)); (24%positive, (TPtr p1)); (25%positive, (TPtr p1)); (26%positive, (TPtr p1)); (27%positive, (TPtr p1)); (28%positive, (TPtr p5)); (29%positive, (TPtr p1)); (30%positive, (TPtr p1))];
   Entry f_em_prove_256 (Sig [(TPtr p1); (TPtr p1); (TPtr p5); (TPtr p0); (TPtr p1); (TPtr p1); (TPtr p1); (TPtr p1)] lo)
     [(1%positive, (TPtr p1)); (2%positive, (TPtr p1)); (3%positive, (TPtr p5)); (4%positive, (TPtr p0)); (5%positive, (TPtr p1)); (6%positive, (TPtr p1)); (7%positive, (TPtr p1)); (8%positive, (TPtr p1)); (9%positive, (TPtr p1)); (10%positive, (TPtr p1)); (11%positive, lo); (12%positive, (TPtr p1)); (13%positive, lo); (14%positive, lo); (15%positive, (TPtr p1)); (16%positive, (TPtr p1)); (17%positive, (TPtr p6)); (18%positive, (TPtr p1)); (19%positive, (TPtr p1)); (20%positive, (TPtr p1)); (21%positive, (TPtr p1)); (22%positive, (TPtr p5)); (23%positive, (TPtr p6)); (24%positive, (TPtr p1)); (25%positive, (TPtr p1)); (26%positive, (TPtr p1)); (27%positive, (TPtr p1)); (28%positive, (TPtr p5)); (29%positive, (TPtr p1)); (30%positive, (TPtr p1))];
   Entry f_em_verify_128 (Sig [(TPtr p0); (TPtr p5); (TPtr p1); (TPtr p0); (TPtr p0); (TPtr p0); (TPtr p0); (TPtr p1)] (TPtr p1))
     [(1%positive, (TPtr p0)); (2%positive, (TPtr p5)); (3%positive, (TPtr p1)); (4%positive, (TPtr p0)); (5%positive, (TPtr p0)); (6%positive, (TPtr p0)); (7%positive, (TPtr p0)); (8%positive, (TPtr p1)); (9%positive, lo); (10%positive, lo); (11%positive, lo); (12%positive, lo); (13%positive, lo); (14%positive, (TPtr p0)); (15%positive, lo); (16%positive, lo); (17%positive, lo); (18%positive, (TPtr p1)); (19%positive, lo); (20%positive, lo); (21%positive, (TPtr p1)); (22%positive, (TPtr p1)); (23%positive, (TPtr p1)); (24%positive, (TPtr p1)); (25%positive, lo); (26%positive, (TPtr p1)); (27%positive, lo); (28%positive, lo); (29%positive, (TPtr p6)); (30%positive, (TPtr p1)); (31%positive, (TPtr p1)); (32%positive, (TPtr p1)); (33%positive, (TPtr p1)); (34%positive, (TPtr p5)); (35%positive, (TPtr p1)); (36%positive, (TPtr p1)); (37%positive, (TPtr p1)); (38%positive, (TPtr p1)); (39%positive, (TPtr p1)); (40%positive, (TPtr p1)); (41%positive, (TPtr p1)); (42%positive, (TPtr p1)); (43%positive, lo); (44%positive, lo)];
   Entry f_em_verify_192 (Sig [(TPtr p0); (TPtr p5); (TPtr p1); (TPtr p0); (TPtr p0); (TPtr p0); (TPtr p0); (TPtr p1)] (TPtr p1))
     [(1%positive, (TPtr p0)); (2%positive, (TPtr p5)); (3%positive, (TPtr p1)); (4%positive, (TPtr p0)); (5%positive, (TPtr p0)); (6%positive, (TPtr p0)); (7%positive, (TPtr p0)); (8%positive, (TPtr p1)); (9%positive, lo); (10%positive, lo); (11%positive, lo); (12%positive, lo); (13%positive, lo); (14%positive, (TPtr p0)); (15%positive, lo); (16%positive, lo); (17%positive, lo); (18%positive, (TPtr p1)); (19%positive, lo); (20%positive, lo); (21%positive, (TPtr p1)); (22%positive, (TPtr p1)); (23%positive, (TPtr p1)); (24%positive, (TPtr p1)); (25%positive, lo); (26%positive, (TPtr p1)); (27%positive, lo); (28%positive, lo); (29%positive, (TPtr p6)); (30%positive, (TPtr p1)); (31%positive, (TPtr p1)); (32%positive, (TPtr p1)); (33%positive, (TPtr p1)); (34%positive, (TPtr p5)); (35%positive, (TPtr p1)); (36%positive, (TPtr p1)); (37%positive, (TPtr p1)); (38%positive, (TPtr p1)); (39%positive, (TPtr p1)); (40%positive, (TPtr p1)); (41%positive, (TPtr p1)); (42%positive, (TPtr p1)); (43%positive, lo); (44%positive, lo); (45%positive, lo); (46%positive, lo)];
   Entry f_em_verify_256 (Sig [(TPtr p0); (TPtr p5); (TPtr p1); (TPtr p0); (TPtr p0); (TPtr p0); (TPtr p0); (TPtr p1)] (TPtr p1))
     [(1%positive, (TPtr p0)); (2%positive, (TPtr p5)); (3%positive, (TPtr p1)); (4%positive, (TPtr p0)); (5%positive, (TPtr p0)); (6%positive, (TPtr p0)); (7%positive, (TPtr p0)); (8%positive, (TPtr p1)); (9%positive, lo); (10%positive, lo); (11%positive, lo); (12%positive, lo); (13%positive, lo); (14%positive, (TPtr p0)); (15%positive, lo); (16%positive, lo); (17%positive, lo); (18%positive, (TPtr p1)); (19%positive, lo); (20%positive, lo); (21%positive, (TPtr p1)); (22%positive, (TPtr p1)); (23%positive, (TPtr p1)); (24%positive, (TPtr p1)); (25%positive, lo); (26%positive, (TPtr p1)); (27%positive, lo); (28%positive, lo); (29%positive, (TPtr p6)); (30%positive, (TPtr p1)); (31%positive, (TPtr p1)); (32%positive, (TPtr p1)); (33%positive, (TPtr p1)); (34%positive, (TPtr p5)); (35%positive, (TPtr p1)); (36%positive, (TPtr p1)); (37%positive, (TPtr p1)); (38%positive, (TPtr p1)); (39%positive, (TPtr p1)); (40%positive, (TPtr p1)); (41%positive, (TPtr p1)); (42%positive, (TPtr p1)); (43%positive, lo); (44%positive, lo); (45%positive, lo); (46%positive, lo)];
   Entry f_expand_key (Sig [(TPtr p1); (TPtr p0); lo; lo; lo] lo)
     [(1%positive, (TPtr p1)); (2%positive, (TPtr p0)); (3%positive, lo); (4%positive, lo); (5%positive, lo); (6%positive, lo); (7%positive, lo); (8%positive, lo); (9%positive, lo); (10%positive, lo); (11%positive, lo); (12%positive, lo); (13%positive, (TPtr p1)); (14%positive, lo); (15%positive, lo); (16%positive, lo)];
   Entry f_expand_key (Sig [(TPtr p1); (TPtr p1); lo; lo; lo] lo)
     [(1%positive, (TPtr p1)); (2%positive, (TPtr p1)); (3%positive, lo); (4%positive, lo); (5%positive, lo); (6%positive, lo); (7%positive, lo); (8%positive, lo); (9%positive, lo); (10%positive, lo); (11%positive, lo); (12%positive, lo); (13%positive, (TPtr p1)); (14%positive, lo); (15%positive, lo); (16%positive, lo)];
   Entry f_expand_seeds (Sig [(TPtr p7); (TPtr p1); (TPtr p1)] lo)
     [(1%positive, (TPtr p7)); (2%positive, (TPtr p1)); (3%positive, (TPtr p1)); (4%positive, lo); (5%positive, lo); (6%positive, lo); (7%positive, lo)];
   Entry f_faest_128f_clear_private_key (Sig [(TPtr p1)] lo)
     [(1%positive, (TPtr p1))];
   Entry f_faest_128f_keygen (Sig [(TPtr p1); (TPtr p1)] lo)
     [(1%positive, (TPtr p1)); (2%positive, (TPtr p1)); (3%positive, lo); (4%positive, lo); (5%positive, lo); (6%positive, lo)];
   Entry f_faest_128f_sign (Sig [(TPtr p0); (TPtr p0); lo; (TPtr p1); (TPtr p1)] lo)
     [(1%positive, (TPtr p0)); (2%positive, (TPtr p0)); (3%positive, lo); (4%positive, (TPtr p1)); (5%positive, (TPtr p1)); (6%positive, (TPtr p1)); (7%positive, lo); (8%positive, lo)];
   Entry f_faest_128f_sign_with_randomness (Sig [(TPtr p0); (TPtr p0); lo; (TPtr p0); lo; (TPtr p1); (TPtr p1)] lo)
     [(1%positive, (TPtr p0)); (2%positive, (TPtr p0)); (3%positive, lo); (4%positive, (TPtr p0)); (5%positive, lo); (6%positive, (TPtr p1)); (7%positive, (TPtr p1)); (8%positive, (TPtr p1)); (9%positive, lo); (10%positive, lo); (11%positive, (TPtr p1))];
   Entry f_faest_128f_sign_with_randomness (Sig [(TPtr p0); (TPtr p0); lo; (TPtr p1); lo; (TPtr p1); (TPtr p1)] lo)
     [(1%positive, (TPtr p0)); (2%positive, (TPtr p0)); (3%positive, lo); (4%positive, (TPtr p1)); (5%positive, lo); (6%positive, (TPtr p1)); (7%positive, (TPtr p1)); (8%positive, (TPtr p1)); (9%positive, lo); (10%positive, lo); (11%positive, (TPtr p1))];
   Entry f_faest_128f_validate_keypair (Sig [(TPtr p0); (TPtr p0)] lo)
     [(1%positive, (TPtr p0)); (2%positive, (TPtr p0)); (3%positive, (TPtr p1)); (4%positive, lo); (5%positive, lo); (6%positive, lo); (7%positive, lo)];
   Entry f_faest_128f_verify (Sig [(TPtr p0); (TPtr p0); lo; (TPtr p0); lo] lo)
     [(1%positive, (TPtr p0)); (2%positive, (TPtr p0)); (3%positive, lo); (4%positive, (TPtr p0)); (5%positive, lo); (6%positive, (TPtr p1)); (7%positive, lo)];
   Entry f_faest_128s_clear_private_key (Sig [(TPtr p1)] lo)
     [(1%positive, (TPtr p1))];
   Entry f_faest_128s_keygen (Sig [(TPtr p1); (TPtr p1)] lo)
     [(1%positive, (TPtr p1)); (2%positive, (TPtr p1)); (3%positive, lo); (4%positive, lo); (5%positive, lo); (6%positive, lo)];
   Entry f_faest_128s_sign (Sig [(TPtr p0); (TPtr p0); lo; (TPtr p1); (TPtr p1)] lo)
     [(1%positive, (TPtr p0)); (2%positive, (TPtr p0)); (3%positive, lo); (4%positive, (TPtr p1)); (5%positive, (TPtr p1)); (6%positive, (TPtr p1)); (7%positive, lo); (8%positive, lo)];
   Entry f_faest_128s_sign_with_randomness (Sig [(TPtr p0); (TPtr p0); lo; (TPtr p0); lo; (TPtr p1); (TPtr p1)] lo)
     [(1%positive, (TPtr p0)); (2%positive, (TPtr p0)); (3%positive, lo); (4%positive, (TPtr p0)); (5%positive, lo); (6%positive, (TPtr p1)); (7%positive, (TPtr p1)); (8%positive, (TPtr p1)); (9%positive, lo); (10%positive, lo); (11%positive, (TPtr p1))];
   Entry f_faest_128s_sign_with_randomness (Sig [(TPtr p0); (TPtr p0); lo; (TPtr p1); lo; (TPtr p1); (TPtr p1)] lo)
     [(1%positive, (TPtr p0)); (2%positive, (TPtr p0)); (3%positive, lo); (4%positive, (TPtr p1)); (5%positive, lo); (6%positive, (TPtr p1)); (7%positive, (TPtr p1)); (8%positive, (TPtr p1)); (9%positive, lo); (10%positive, lo); (11%positive, (TPtr p1))];
   Entry f_faest_128s_validate_keypair (Sig [(TPtr p0); (TPtr p0)] lo)
     [(1%positive, (TPtr p0)); (2%positive, (TPtr p0)); (3%positive, (TPtr p1)); (4%positive, lo); (5%positive, lo); (6%positive, lo); (7%positive, lo)];
   Entry f_faest_128s_verify (Sig [(TPtr p0); (TPtr p0); lo; (TPtr p0); lo] lo)
     [(1%positive, (TPtr p0)); (2%positive, (TPtr p0)); (3%positive, lo); (4%positive, (TPtr p0)); (5%positive, lo); (6%positive, (TPtr p1)); (7%positive, lo)];
   Entry f_faest_192f_clear_private_key (Sig [(TPtr p1)] lo)
     [(1%positive, (TPtr p1))];
   Entry f_faest_192f_keygen (Sig [(TPtr p1); (TPtr p1)] lo)
     [(1%positive, (TPtr p1)); (2%positive, (TPtr p1)); (3%positive, lo); (4%positive, lo); (5%positive, lo); (6%positive, lo)];
   Entry f_faest_192f_sign (Sig [(TPtr p0); (TPtr p0); lo; (TPtr p1); (TPtr p1)] lo)
     [(1%positive, (TPtr p0)); (2%positive, (TPtr p0)); (3%positive, lo); (4%positive, (TPtr p1)); (5%positive, (TPtr p1)); (6%positive, (TPtr p1)); (7%positive, lo); (8%positive, lo)];
   Entry f_faest_192f_sign_with_randomness (Sig [(TPtr p0); (TPtr p0); lo; (TPtr p0); lo; (TPtr p1); (TPtr p1)] lo)
     [(1%positive, (TPtr p0)); (2%positive, (TPtr p0)); (3%positive, lo); (4%positive, (TPtr p0)); (5%positive, lo); (6%positive, (TPtr p1)); (7%positive, (TPtr p1)); (8%positive, (TPtr p1)); (9%positive, lo); (10%positive, lo); (11%positive, (TPtr p1))];
   Entry f_faest_192f_sign_with_randomness (Sig [(TPtr p0); (TPtr p0); lo; (TPtr p1); lo; (TPtr p1); (TPtr p1)] lo)
     [(1%positive, (TPtr p0)); (2%positive, (TPtr p0)); (3%positive, lo); (4%positive, (TPtr p1)); (5%positive, lo); (6%positive, (TPtr p1)); (7%positive, (TPtr p1)); (8%positive, (TPtr p1)); (9%positive, lo); (10%positive, lo); (11%positive, (TPtr p1))];
   Entry f_faest_192f_validate_keypair (Sig [(TPtr p0); (TPtr p0)] lo)
     [(1%positive, (TPtr p0)); (2%positive, (TPtr p0)); (3%positive, (TPtr p1)); (4%positive, lo); (5%positive, lo); (6%positive, lo); (7%positive, lo)];
   Entry f_faest_192f_verify (Sig [(TPtr p0); (TPtr p0); lo; (TPtr p0); lo] lo)
     [(1%positive, (TPtr p0)); (2%positive, (TPtr p0)); (3%positive, lo); (4%positive, (TPtr p0)); (5%positive, lo); (6%positive, (TPtr p1)); (7%positive, lo)];
   Entry f_faest_192s_clear_private_key (Sig [(TPtr p1)] lo)
     [(1%positive, (TPtr p1))];
   Entry f_faest_192s_keygen (Sig [(TPtr p1); (TPtr p1)] lo)
     [(1%positive, (TPtr p1)); (2%positive, (TPtr p1)); (3%positive, lo); (4%positive, lo); (5%positive, lo); (6%positive, lo)];
   Entry f_faest_192s_sign (Sig [(TPtr p0); (TPtr p0); lo; (TPtr p1); (TPtr p1)] lo)
     [(1%positive, (TPtr p0)); (2%positive, (TPtr p0)); (3%positive, lo); (4%positive, (TPtr p1)); (5%positive, (TPtr p1)); (6%positive, (TPtr p1)); (7%positive, lo); (8%positive, lo)];
   Entry f_faest_192s_sign_with_randomness (Sig [(TPtr p0); (TPtr p0); lo; (TPtr p0); lo; (TPtr p1); (TPtr p1)] lo)
     [(1%positive, (TPtr p0)); (2%positive, (TPtr p0)); (3%positive, lo); (4%positive, (TPtr p0)); (5%positive, lo); (6%positive, (TPtr p1)); (7%positive, (TPtr p1)); (8%positive, (TPtr p1)); (9%positive, lo); (10%positive, lo); (11%positive, (TPtr p1))];
   Entry f_faest_192s_sign_with_randomness (Sig [(TPtr p0); (TPtr p0); lo; (TPtr p1); lo; (TPtr p1); (TPtr p1)] lo)
     [(1%positive, (TPtr p0)); (2%positive, (TPtr p0)); (3%positive, lo); (4%positive, (TPtr p1)); (5%positive, lo); (6%positive, (TPtr p1)); (7%positive, (TPtr p1)); (8%positive, (TPtr p1)); (9%positive, lo); (10%positive, lo); (11%positive, (TPtr p1))];
   Entry f_faest_192s_validate_keypair (Sig [(TPtr p0); (TPtr p0)] lo)
     [(1%positive, (TPtr p0)); (2%positive, (TPtr p0)); (3%positive, (TPtr p1)); (4%positive, lo); (5%positive, lo); (6%positive, lo); (7%positive, lo)];
   Entry f_faest_192s_verify (Sig [(TPtr p0); (TPtr p0); lo; (TPtr p0); lo] lo)
     [(1%positive, (TPtr p0)); (2%positive, (TPtr p0)); (3%positive, lo); (4%positive, (TPtr p0)); (5%positive, lo); (6%positive, (TPtr p1)); (7%positive, lo)];
   Entry f_faest_256f_clear_private_key (Sig [(TPtr p1)] lo)
     [(1%positive, (TPtr p1))];
   Entry f_faest_256f_keygen (Sig [(TPtr p1); (TPtr p1)] lo)
     [(1%positive, (TPtr p1)); (2%positive, (TPtr p1)); (3%positive, lo); (4%positive, lo); (5%positive, lo); (6%positive, lo)];
   Entry f_faest_256f_sign (Sig [(TPtr p0); (TPtr p0); lo; (TPtr p1); (TPtr p1)] lo)
     [(1%positive, (TPtr p0)); (2%positive, (TPtr p0)); (3%positive, lo); (4%positive, (TPtr p1)); (5%positive, (TPtr p1)); (6%positive, (TPtr p1)); (7%positive, lo); (8%positive, lo)];
   Entry f_faest_256f_sign_with_randomness (Sig [(TPtr p0); (TPtr p0); lo; (TPtr p0); lo; (TPtr p1); (TPtr p1)] lo)
     [(1%positive, (TPtr p0)); (2%positive, (TPtr p0)); (3%positive, lo); (4%positive, (TPtr p0)); (5%positive, lo); (6%positive, (TPtr p1)); (7%positive, (TPtr p1)); (8%positive, (TPtr p1)); (9%positive, lo); (10%positive, lo); (11%positive, (TPtr p1))];
   Entry f_faest_256f_sign_with_randomness (Sig [(TPtr p0); (TPtr p0); lo; (TPtr p1); lo; (TPtr p1); (TPtr p1)] lo)
     [(1%positive, (TPtr p0)); (2%positive, (TPtr p0)); (3%positive, lo); (4%positive, (TPtr p1)); (5%positive, lo); (6%positive, (TPtr p1)); (7%positive, (TPtr p1)); (8%positive, (TPtr p1)); (9%positive, lo); (10%positive, lo); (11%positive, (TPtr p1))];
   Entry f_faest_256f_validate_keypair (Sig [(TPtr p0); (TPtr p0)] lo)
     [(1%positive, (TPtr p0)); (2%positive, (TPtr p0)); (3%positive, (TPtr p1)); (4%positive, lo); (5%positive, lo); (6%positive, lo); (7%positive, lo)];
   Entry f_faest_256f_verify (Sig [(TPtr p0); (TPtr p0); lo; (TPtr p0); lo] lo)
     [(1%positive, (TPtr p0)); (2%positive, (TPtr p0)); (3%positive, lo); (4%positive, (TPtr p0)); (5%positive, lo); (6%positive, (TPtr p1)); (7%positive, lo)];
   Entry f_faest_256s_clear_private_key (Sig [(TPtr p1)] lo)
     [(1%positive, (TPtr p1))];
   Entry f_faest_256s_keygen (Sig [(TPtr p1); (TPtr p1)] lo)
     [(1%positive, (TPtr p1)); (2%positive, (TPtr p1)); (3%positive, lo); (4%positive, lo); (5%positive, lo); (6%positive, lo)];
   Entry f_faest_256s_sign (Sig [(TPtr p0); (TPtr p0); lo; (TPtr p1); (TPtr p1)] lo)
     [(1%positive, (TPtr p0)); (2%positive, (TPtr p0)); (3%positive, lo); (4%positive, (TPtr p1)); (5%positive, (TPtr p1)); (6%positive, (TPtr p1)); (7%positive, lo); (8%positive, lo)];
   Entry f_faest_256s_sign_with_randomness (Sig [(TPtr p0); (TPtr p0); lo; (TPtr p0); lo; (TPtr p1); (TPtr p1)] lo)
     [(1%positive, (TPtr p0)); (2%positive, (TPtr p0)); (3%positive, lo); (4%positive, (TPtr p0)); (5%positive, lo); (6%positive, (TPtr p1)); (7%positive, (TPtr p1)); (8%positive, (TPtr p1)); (9%positive, lo); (10%positive, lo); (11%positive, (TPtr p1))];
   Entry f_faest_256s_sign_with_randomness (Sig [(TPtr p0); (TPtr p0); lo; (TPtr p1); lo; (TPtr p1); (TPtr p1)] lo)
     [(1%positive, (TPtr p0)); (2%positive, (TPtr p0)); (3%positive, lo); (4%positive, (TPtr p1)); (5%positive, lo); (6%positive, (TPtr p1)); (7%positive, (TPtr p1)); (8%positive, (TPtr p1)); (9%positive, lo); (10%positive, lo); (11%positive, (TPtr p1))];
   Entry f_faest_256s_validate_keypair (Sig [(TPtr p0); (TPtr p0)] lo)
     [(1%positive, (TPtr p0)); (2%positive, (TPtr p0)); (3%positive, (TPtr p1)); (4%positive, lo); (5%positive, lo); (6%positive, lo); (7%positive, lo)];
   Entry f_faest_256s_verify (Sig [(TPtr p0); (TPtr p0); lo; (TPtr p0); lo] lo)
     [(1%positive, (TPtr p0)); (2%positive, (TPtr p0)); (3%positive, lo); (4%positive, (TPtr p0)); (5%positive, lo); (6%positive, (TPtr p1)); (7%positive, lo)];
   Entry f_faest_em_128f_clear_private_key (Sig [(TPtr p1)] lo)
     [(1%positive, (TPtr p1))];
   Entry f_faest_em_128f_keygen (Sig [(TPtr p1); (TPtr p1)] lo)
     [(1%positive, (TPtr p1)); (2%positive, (TPtr p1)); (3%positive, lo); (4%positive, lo); (5%positive, lo); (6%positive, lo)];
   Entry f_faest_em_128f_sign (Sig [(TPtr p0); (TPtr p0); lo; (TPtr p1); (TPtr p1)] lo)
     [(1%positive, (TPtr p0)); (2%positive, (TPtr p0)); (3%positive, lo); (4%positive, (TPtr p1)); (5%positive, (TPtr p1)); (6%positive, (TPtr p1)); (7%positive, lo); (8%positive, lo)];
   Entry f_faest_em_128f_sign_with_randomness (Sig [(TPtr p0); (TPtr p0); lo; (TPtr p0); lo; (TPtr p1); (TPtr p1)] lo)
     [(1%positive, (TPtr p0)); (2%positive, (TPtr p0)); (3%positive, lo); (4%positive, (TPtr p0)); (5%positive, lo); (6%positive, (TPtr p1)); (7%positive, (TPtr p1)); (8%positive, (TPtr p1)); (9%positive, lo); (10%positive, lo); (11%positive, (TPtr p1))];
   Entry f_faest_em_128f_sign_with_randomness (Sig [(TPtr p0); (TPtr p0); lo; (TPtr p1); lo; (TPtr p1); (TPtr p1)] lo)
     [(1%positive, (TPtr p0)); (2%positive, (TPtr p0)); (3%positive, lo); (4%positive, (TPtr p1)); (5%positive, lo); (6%positive, (TPtr p1)); (7%positive, (TPtr p1)); (8%positive, (TPtr p1)); (9%positive, lo); (10%positive, lo); (11%positive, (TPtr p1))];
   Entry f_faest_em_128f_validate_keypair (Sig [(TPtr p0); (TPtr p0)] lo)
     [(1%positive, (TPtr p0)); (2%positive, (TPtr p0)); (3%positive, (TPtr p1)); (4%positive, lo); (5%positive, lo); (6%positive, lo); (7%positive, lo)];
   Entry f_faest_em_128f_verify (Sig [(TPtr p0); (TPtr p0); lo; (TPtr p0); lo] lo)
     [(1%positive, (TPtr p0)); (2%positive, (TPtr p0)); (3%positive, lo); (4%positive, (TPtr p0)); (5%positive, lo); (6%positive, (TPtr p1)); (7%positive, lo)];
   Entry f_faest_em_128s_clear_private_key (Sig [(TPtr p1)] lo)
     [(1%positive, (TPtr p1))];
   Entry f_faest_em_128s_keygen (Sig [(TPtr p1); (TPtr p1)] lo)
     [(1%positive, (TPtr p1)); (2%positive, (TPtr p1)); (3%positive, lo); (4%positive, lo); (5%positive, lo); (6%positive, lo)];
   Entry f_faest_em_128s_sign (Sig [(TPtr p0); (TPtr p0); lo; (TPtr p1); (TPtr p1)] lo)
     [(1%positive, (TPtr p0)); (2%positive, (TPtr p0)); (3%positive, lo); (4%positive, (TPtr p1)); (5%positive, (TPtr p1)); (6%positive, (TPtr p1)); (7%positive, lo); (8%positive, lo)];
   Entry f_faest_em_128s_sign_with_randomness (Sig [(TPtr p0); (TPtr p0); lo; (TPtr p0); lo; (TPtr p1); (TPtr p1)] lo)
     [(1%positive, (TPtr p0)); (2%positive, (TPtr p0)); (3%positive, lo); (4%positive, (TPtr p0)); (5%positive, lo); (6%positive, (TPtr p1)); (7%positive, (TPtr p1)); (8%positive, (TPtr p1)); (9%positive, lo); (10%positive, lo); (11%positive, (TPtr p1))];
   Entry f_faest_em_128s_sign_with_randomness (Sig [(TPtr p0); (TPtr p0); lo; (TPtr p1); lo; (TPtr p1); (TPtr p1)] lo)
     [(1%positive, (TPtr p0)); (2%positive, (TPtr p0)); (3%positive, lo); (4%positive, (TPtr p1)); (5%positive, lo); (6%positive, (TPtr p1)); (7%positive, (TPtr p1)); (8%positive, (TPtr p1)); (9%positive, lo); (10%positive, lo); (11%positive, (TPtr p1))];
   Entry f_faest_em_128s_validate_keypair (Sig [(TPtr p0); (TPtr p0)] lo)
     [(1%positive, (TPtr p0)); (2%positive, (TPtr p0)); (3%positive, (TPtr p1)); (4%positive, lo); (5%positive, lo); (6%positive, lo); (7%positive, lo)];
   Entry f_faest_em_128s_verify (Sig [(TPtr p0); (TPtr p0); lo; (TPtr p0); lo] lo)
     [(1%positive, (TPtr p0)); (2%positive, (TPtr p0)); (3%positive, lo); (4%positive, (TPtr p0)); (5%positive, lo); (6%positive, (TPtr p1)); (7%positive, lo)];
   Entry f_faest_em_192f_clear_private_key (Sig [(TPtr p1)] lo)
     [(1%positive, (TPtr p1))];
   Entry f_faest_em_192f_keygen (Sig [(TPtr p1); (TPtr p1)] lo)
     [(1%positive, (TPtr p1)); (2%positive, (TPtr p1)); (3%positive, lo); (4%positive, lo); (5%positive, lo); (6%positive, lo)];
   Entry f_faest_em_192f_sign (Sig [(TPtr p0); (TPtr p0); lo; (TPtr p1); (TPtr p1)] lo)
     [(1%positive, (TPtr p0)); (2%positive, (TPtr p0)); (3%positive, lo); (4%positive, (TPtr p1)); (5%positive, (TPtr p1)); (6%positive, (TPtr p1)); (7%positive, lo); (8%positive, lo)];
   Entry f_faest_em_192f_sign_with_randomness (Sig [(TPtr p0); (TPtr p0); lo; (TPtr p0); lo; (TPtr p1); (TPtr p1)] lo)
     [(1%positive, (TPtr p0)); (2%positive, (TPtr p0)); (3%positive, lo); (4%positive, (TPtr p0)); (5%positive, lo); (6%positive, (TPtr p1)); (7%positive, (TPtr p1)); (8%positive, (TPtr p1)); (9%positive, lo); (10%positive, lo); (11%positive, (TPtr p1))];
   Entry f_faest_em_192f_sign_with_randomness (Sig [(TPtr p0); (TPtr p0); lo; (TPtr p1); lo; (TPtr p1); (TPtr p1)] lo)
     [(1%positive, (TPtr p0)); (2%positive, (TPtr p0)); (3%positive, lo); (4%positive, (TPtr p1)); (5%positive, lo); (6%positive, (TPtr p1)); (7%positive, (TPtr p1)); (8%positive, (TPtr p1)); (9%positive, lo); (10%positive, lo); (11%positive, (TPtr p1))];
   Entry f_faest_em_192f_validate_keypair (Sig [(TPtr p0); (TPtr p0)] lo)
     [(1%positive, (TPtr p0)); (2%positive, (TPtr p0)); (3%positive, (TPtr p1)); (4%positive, lo); (5%positive, lo); (6%positive, lo); (7%positive, lo)];
   Entry f_faest_em_192f_verify (Sig [(TPtr p0); (TPtr p0); lo; (TPtr p0); lo] lo)
     [(1%positive, (TPtr p0)); (2%positive, (TPtr p0)); (3%positive, lo); (4%positive, (TPtr p0)); (5%positive, lo); (6%positive, (TPtr p1)); (7%positive, lo)];
   Entry f_faest_em_192s_clear_private_key (Sig [(TPtr p1)] lo)
     [(1%positive, (TPtr p1))];
   Entry f_faest_em_192s_keygen (Sig [(TPtr p1); (TPtr p1)] lo)
     [(1%positive, (TPtr p1)); (2%positive, (TPtr p1)); (3%positive, lo); (4%positive, lo); (5%positive, lo); (6%positive, lo)];
   Entry f_faest_em_192s_sign (Sig [(TPtr p0); (TPtr p0); lo; (TPtr p1); (TPtr p1)] lo)
     [(1%positive, (TPtr p0)); (2%positive, (TPtr p0)); (3%positive, lo); (4%positive, (TPtr p1)); (5%positive, (TPtr p1)); (6%positive, (TPtr p1)); (7%positive, lo); (8%positive, lo)];
   Entry f_faest_em_192s_sign_with_randomness (Sig [(TPtr p0); (TPtr p0); lo; (TPtr p0); lo; (TPtr p1); (TPtr p1)] lo)
     [(1%positive, (TPtr p0)); (2%positive, (TPtr p0)); (3%positive, lo); (4%positive, (TPtr p0)); (5%positive, lo); (6%positive, (TPtr p1)); (7%positive, (TPtr p1)); (8%positive, (TPtr p1)); (9%positive, lo); (10%positive, lo); (11%positive, (TPtr p1))];
   Entry f_faest_em_192s_sign_with_randomness (Sig [(TPtr p0); (TPtr p0); lo; (TPtr p1); lo; (TPtr p1); (TPtr p1)] lo)
     [(1%positive, (TPtr p0)); (2%positive, (TPtr p0)); (3%positive, lo); (4%positive, (TPtr p1)); (5%positive, lo); (6%positive, (TPtr p1)); (7%positive, (TPtr p1)); (8%positive, (TPtr p1)); (9%positive, lo); (10%positive, lo); (11%positive, (TPtr p1))];
   Entry f_faest_em_192s_validate_keypair (Sig [(TPtr p0); (TPtr p0)] lo)
     [(1%positive, (TPtr p0)); (2%positive, (TPtr p0)); (3%positive, (TPtr p1)); (4%positive, lo); (5%positive, lo); (6%positive, lo); (7%positive, lo)];
   Entry f_faest_em_192s_verify (Sig [(TPtr p0); (TPtr p0); lo; (TPtr p0); lo] lo)
     [(1%positive, (TPtr p0)); (2%positive, (TPtr p0)); (3%positive, lo); (4%positive, (TPtr p0)); (5%positive, lo); (6%positive, (TPtr p1)); (7%positive, lo)];
   Entry f_faest_em_256f_clear_private_key (Sig [(TPtr p1)] lo)
     [(1%positive, (TPtr p1))];
   Entry f_faest_em_256f_keygen (Sig [(TPtr p1); (TPtr p1)] lo)
     [(1%positive, (TPtr p1)); (2%positive, (TPtr p1)); (3%positive, lo); (4%positive, lo); (5%positive, lo); (6%positive, lo)];
   Entry f_faest_em_256f_sign (Sig [(TPtr p0); (TPtr p0); lo; (TPtr p1); (TPtr p1)] lo)
     [(1%positive, (TPtr p0)); (2%positive, (TPtr p0)); (3%positive, lo); (4%positive, (TPtr p1)); (5%positive, (TPtr p1)); (6%positive, (TPtr p1)); (7%positive, lo); (8%positive, lo)];
   Entry f_faest_em_256f_sign_with_randomness (Sig [(TPtr p0); (TPtr p0); lo; (TPtr p0); lo; (TPtr p1); (TPtr p1)] lo)
     [(1%positive, (TPtr p0)); (2%positive, (TPtr p0)); (3%positive, lo); (4%positive, (TPtr p0)); (5%positive, lo); (6%positive, (TPtr p1)); (7%positive, (TPtr p1)); (8%positive, (TPtr p1)); (9%positive, lo); (10%positive, lo); (11%positive, (TPtr p1))];
   Entry f_faest_em_256f_sign_with_randomness (Sig [(TPtr p0); (TPtr p0); lo; (TPtr p1); lo; (TPtr p1); (TPtr p1)] lo)
     [(1%positive, (TPtr p0)); (2%positive, (TPtr p0)); (3%positive, lo); (4%positive, (TPtr p1)); (5%positive, lo); (6%positive, (TPtr p1)); (7%positive, (TPtr p1)); (8%positive, (TPtr p1)); (9%positive, lo); (10%positive, lo); (11%positive, (TPtr p1))];
   Entry f_faest_em_256f_validate_keypair (Sig [(TPtr p0); (TPtr p0)] lo)
     [(1%positive, (TPtr p0)); (2%positive, (TPtr p0)); (3%positive, (TPtr p1)); (4%positive, lo); (5%positive, lo); (6%positive, lo); (7%positive, lo)];
   Entry f_faest_em_256f_verify (Sig [(TPtr p0); (TPtr p0); lo; (TPtr p0); lo] lo)
     [(1%positive, (TPtr p0)); (2%positive, (TPtr p0)); (3%positive, lo); (4%positive, (TPtr p0)); (5%positive, lo); (6%positive, (TPtr p1)); (7%positive, lo)];
   Entry f_faest_em_256s_clear_private_key (Sig [(TPtr p1)] lo)
     [(1%positive, (TPtr p1))];
   Entry f_faest_em_256s_keygen (Sig [(TPtr p1); (TPtr p1)] lo)
     [(1%positive, (TPtr p1)); (2%positive, (TPtr p1)); (3%positive, lo); (4%positive, lo); (5%positive, lo); (6%positive, lo)];
   Entry f_faest_em_256s_sign (Sig [(TPtr p0); (TPtr p0); lo; (TPtr p1); (TPtr p1)] lo)
     [(1%positive, (TPtr p0)); (2%positive, (TPtr p0)); (3%positive, lo); (4%positive, (TPtr p1)); (5%positive, (TPtr p1)); (6%positive, (TPtr p1)); (7%positive, lo); (8%positive, lo)];
   Entry f_faest_em_256s_sign_with_randomness (Sig [(TPtr p0); (TPtr p0); lo; (TPtr p0); lo; (TPtr p1); (TPtr p1)] lo)
     [(1%positive, (TPtr p0)); (2%positive, (TPtr p0)); (3%positive, lo); (4%positive, (TPtr p0)); (5%positive, lo); (6%positive, (TPtr p1)); (7%positive, (TPtr p1)); (8%positive, (TPtr p1)); (9%positive, lo); (10%positive, lo); (11%positive, (TPtr p1))];
   Entry f_faest_em_256s_sign_with_randomness (Sig [(TPtr p0); (TPtr p0); lo; (TPtr p1); lo; (TPtr p1); (TPtr p1)] lo)
     [(1%positive, (TPtr p0)); (2%positive, (TPtr p0)); (3%positive, lo); (4%positive, (TPtr p1)); (5%positive, lo); (6%positive, (TPtr p1)); (7%positive, (TPtr p1)); (8%positive, (TPtr p1)); (9%positive, lo); (10%positive, lo); (11%positive, (TPtr p1))];
   Entry f_faest_em_256s_validate_keypair (Sig [(TPtr p0); (TPtr p0)] lo)
     [(1%positive, (TPtr p0)); (2%positive, (TPtr p0)); (3%positive, (TPtr p1)); (4%positive, lo); (5%positive, lo); (6%positive, lo); (7%positive, lo)];
   Entry f_faest_em_256s_verify (Sig [(TPtr p0); (TPtr p0); lo; (TPtr p0); lo] lo)
     [(1%positive, (TPtr p0)); (2%positive, (TPtr p0)); (3%positive, lo); (4%positive, (TPtr p0)); (5%positive, lo); (6%positive, (TPtr p1)); (7%positive, lo)];
   Entry f_faest_explicit_bzero (Sig [(TPtr p1); lo] lo)
     [(1%positive, (TPtr p1)); (2%positive, lo); (3%positive, (TPtr p1))];
   Entry f_faest_get_paramset (Sig [(TPtr p1); lo] lo)
     [(1%positive, (TPtr p1)); (2%positive, lo); (3%positive, lo); (4%positive, (TPtr p1)); (5%positive, (TPtr p1)); (6%positive, (TPtr p1)); (7%positive, (TPtr p1)); (8%positive, (TPtr p1)); (9%positive, (TPtr p1)); (10%positive, (TPtr p1)); (11%positive, (TPtr p1)); (12%positive, (TPtr p1)); (13%positive, (TPtr p1)); (14%positive, (TPtr p1)); (15%positive, (TPtr p1)); (16%positive, (TPtr p1))];
   Entry f_faest_sign (Sig [(TPtr p1); (TPtr p0); lo; (TPtr p0); (TPtr p0); (TPtr p1); (TPtr p0); lo; (TPtr p1)] lo)
     [(1%positive, (TPtr p1)); (2%positive, (TPtr p0)); (3%positive, lo); (4%positive, (TPtr p0)); (5%positive, (TPtr p0)); (6%positive, (TPtr p1)); (7%positive, (TPtr p0)); (8%positive, lo); (9%positive, (TPtr p1)); (10%positive, lo); (11%positive, lo); (12%positive, lo); (13%positive, lo); (14%positive, lo); (15%positive, lo); (16%positive, lo); (17%positive, lo); (18%positive, (TPtr p1)); (19%positive, (TPtr p1)); (20%positive, (TPtr p3)); (21%positive, (TPtr p2)); (22%positive, (TPtr p1)); (23%positive, (TPtr p1)); (24%positive, (TPtr p1)); (25%positive, (TPtr p1)); (26%positive, (TPtr p1)); (27%positive, (TPtr p1)); (28%positive, (TPtr p1)); (29%positive, (TPtr p1)); (30%positive, (TPtr p8)); (31%positive, lo); (32%positive, lo); (33%positive, (TPtr p5)); (34%positive, (TPtr p5)); (35%positive, (TPtr p5)); (36%positive, (TPtr p5)); (37%positive, (TPtr p8)); (38%positive, (TPtr p1)); (39%positive, (TPtr p1)); (40%positive, (TPtr p5)); (41%positive, (TPtr p5)); (42%positive, (TPtr p1)); (43%positive, lo); (44%positive, (TPtr p1)); (45%positive, (TPtr p1)); (46%positive, (TPtr p1)); (47%positive, (TPtr p1)); (48%positive, (TPtr p1)); (49%positive, (TPtr p1)); (50%positive, (TPtr p1)); (51%positive, (TPtr p1)); (52%positive, (TPtr p3)); (53%positive, (TPtr p2)); (54%positive, (TPtr p1)); (55%positive, (TPtr p1)); (56%positive, (TPtr p1)); (57%positive, (TPtr p1)); (58%positive, (TPtr p1)); (59%positive, (TPtr p1)); (60%positive, (TPtr p1)); (61%positive, lo); (62%positive, (TPtr p1)); (63%positive, (TPtr p1)); (64%positive, (TPtr p1)); (65%positive, (TPtr p1)); (66%positive, (TPtr p1)); (67%positive, (TPtr p1)); (68%positive, (TPtr p1)); (69%positive, (TPtr p1)); (70%positive, (TPtr p1)); (71%positive, (TPtr p1)); (72%positive, lo); (73%positive, (TPtr p1)); (74%positive, (TPtr p1)); (75%positive, (TPtr p1)); (76%positive, lo); (77%positive, lo); (78%positive, (TPtr p1)); (79%positive, (TPtr p1))];
   Entry f_faest_sign (Sig [(TPtr p1); (TPtr p0); lo; (TPtr p0); (TPtr p0); (TPtr p1); (TPtr p1); lo; (TPtr p1)] lo)
     [(1%positive, (TPtr p1)); (2%positive, (TPtr p0)); (3%positive, lo); (4%positive, (TPtr p0)); (5%positive, (TPtr p0)); (6%positive, (TPtr p1)); (7%positive, (TPtr p1)); (8%positive, lo); (9%positive, (TPtr p1)); (10%positive, lo); (11%positive, lo); (12%positive, lo); (13%positive, lo); (14%positive, lo); (15%positive, lo); (16%positive, lo); (17%positive, lo); (18%positive, (TPtr p1)); (19%positive, (TPtr p1)); (20%positive, (TPtr p3)); (21%positive, (TPtr p2)); (22%positive, (TPtr p1)); (23%positive, (TPtr p1)); (24%positive, (TPtr p1)); (25%positive, (TPtr p1)); (26%positive, (TPtr p1)); (27%positive, (TPtr p1)); (28%positive, (TPtr p1)); (29%positive, (TPtr p1)); (30%positive, (TPtr p8)); (31%positive, lo); (32%positive, lo); (33%positive, (TPtr p5)); (34%positive, (TPtr p5)); (35%positive, (TPtr p5)); (36%positive, (TPtr p5)); (37%positive, (TPtr p8)); (38%positive, (TPtr p1)); (39%positive, (TPtr p1)); (40%positive, (TPtr p5)); (41%positive, (TPtr p5)); (42%positive, (TPtr p1)); (43%positive, lo); (44%positive, (TPtr p1)); (45%positive, (TPtr p1)); (46%positive, (TPtr p1)); (47%positive, (TPtr p1)); (48%positive, (TPtr p1)); (49%positive, (TPtr p1)); (50%positive, (TPtr p1)); (51%positive, (TPtr p1)); (52%positive, (TPtr p3)); (53%positive, (TPtr p2)); (54%positive, (TPtr p1)); (55%positive, (TPtr p1)); (56%positive, (TPtr p1)); (57%positive, (TPtr p1)); (58%positive, (TPtr p1)); (59%positive, (TPtr p1)); (60%positive, (TPtr p1)); (61%positive, lo); (62%positive, (TPtr p1)); (63%positive, (TPtr p1)); (64%positive, (TPtr p1)); (65%positive, (TPtr p1)); (66%positive, (TPtr p1)); (67%positive, (TPtr p1)); (68%positive, (TPtr p1)); (69%positive, (TPtr p1)); (70%positive, (TPtr p1)); (71%positive, (TPtr p1)); (72%positive, lo); (73%positive, (TPtr p1)); (74%positive, (TPtr p1)); (75%positive, (TPtr p1)); (76%positive, lo); (77%positive, lo); (78%positive, (TPtr p1)); (79%positive, (TPtr p1))];
   Entry f_faest_timingsafe_bcmp (Sig [(TPtr p1); (TPtr p0); lo] lo)
     [(1%positive, (TPtr p1)); (2%positive, (TPtr p0)); (3%positive, lo); (4%positive, (TPtr p1)); (5%positive, (TPtr p0)); (6%positive, lo)];
   Entry f_faest_verify (Sig [(TPtr p0); lo; (TPtr p0); (TPtr p0); (TPtr p0); (TPtr p1)] lo)
     [(1%positive, (TPtr p0)); (2%positive, lo); (3%positive, (TPtr p0)); (4%positive, (TPtr p0)); (5%positive, (TPtr p0)); (6%positive, (TPtr p1)); (7%positive, lo); (8%positive, lo); (9%positive, lo); (10%positive, lo); (11%positive, lo); (12%positive, lo); (13%positive, lo); (14%positive, lo); (15%positive, lo); (16%positive, lo); (17%positive, (TPtr p1)); (18%positive, (TPtr p5)); (19%positive, (TPtr p5)); (20%positive, (TPtr p1)); (21%positive, lo); (22%positive, (TPtr p1)); (23%positive, (TPtr p4)); (24%positive, (TPtr p4)); (25%positive, lo); (26%positive, (TPtr p0)); (27%positive, (TPtr p0)); (28%positive, (TPtr p0)); (29%positive, (TPtr p0)); (30%positive, (TPtr p1)); (31%positive, (TPtr p0)); (32%positive, (TPtr p0)); (33%positive, (TPtr p5)); (34%positive, (TPtr p5)); (35%positive, (TPtr p1)); (36%positive, lo); (37%positive, (TPtr p5)); (38%positive, (TPtr p5)); (39%positive, (TPtr p1)); (40%positive, lo); (41%positive, lo); (42%positive, lo); (43%positive, lo); (44%positive, lo); (45%positive, (TPtr p1)); (46%positive, (TPtr p0)); (47%positive, lo); (48%positive, lo); (49%positive, (TPtr p0)); (50%positive, lo); (51%positive, (TPtr p0)); (52%positive, (TPtr p1)); (53%positive, (TPtr p3)); (54%positive, (TPtr p2)); (55%positive, (TPtr p1)); (56%positive, (TPtr p1)); (57%positive, (TPtr p1)); (58%positive, (TPtr p1)); (59%positive, (TPtr p1)); (60%positive, (TPtr p1)); (61%positive, (TPtr p1)); (62%positive, lo); (63%positive, (TPtr p1)); (64%positive, (TPtr p0)); (65%positive, (TPtr p0)); (66%positive, (TPtr p0)); (67%positive, (TPtr p0)); (68%positive, (TPtr p0)); (69%positive, (TPtr p1)); (70%positive, (TPtr p1)); (71%positive, (TPtr p1)); (72%positive, (TPtr p0)); (73%positive, (TPtr p0)); (74%positive, lo)];
   Entry f_generate_seeds (Sig [(TPtr p7); (TPtr p1); (TPtr p1); (TPtr p1); lo] lo)
     [(1%positive, (TPtr p7)); (2%positive, (TPtr p1)); (3%positive, (TPtr p1)); (4%positive, (TPtr p1)); (5%positive, lo); (6%positive, lo); (7%positive, (TPtr p7)); (8%positive, (TPtr p5)); (9%positive, (TPtr p1)); (10%positive, (TPtr p1))];
   Entry f_getBinaryTreeNodeCount (Sig [lo] lo)
     [(1%positive, lo)];
   Entry f_getNodeIndex (Sig [lo; lo] lo)
     [(1%positive, lo); (2%positive, lo)];
   Entry f_get_parent (Sig [lo] lo)
     [(1%positive, lo); (2%positive, lo)];
   Entry f_hash_challenge_1 (Sig [(TPtr p1); (TPtr p1); (TPtr p1); (TPtr p0); (TPtr p0); lo; lo; lo] lo)
     [(1%positive, (TPtr p1)); (2%positive, (TPtr p1)); (3%positive, (TPtr p1)); (4%positive, (TPtr p0)); (5%positive, (TPtr p0)); (6%positive, lo); (7%positive, lo); (8%positive, lo); (9%positive, lo); (10%positive, lo); (11%positive, (TPtr p3)); (12%positive, (TPtr p2)); (13%positive, (TPtr p1)); (14%positive, (TPtr p1)); (15%positive, (TPtr p1)); (16%positive, (TPtr p1)); (17%positive, (TPtr p1)); (18%positive, (TPtr p1))];
   Entry f_hash_challenge_1 (Sig [(TPtr p1); (TPtr p1); (TPtr p1); (TPtr p1); (TPtr p1); lo; lo; lo] lo)
     [(1%positive, (TPtr p1)); (2%positive, (TPtr p1)); (3%positive, (TPtr p1)); (4%positive, (TPtr p1)); (5%positive, (TPtr p1)); (6%positive, lo); (7%positive, lo); (8%positive, lo); (9%positive, lo); (10%positive, lo); (11%positive, (TPtr p3)); (12%positive, (TPtr p2)); (13%positive, (TPtr p1)); (14%positive, (TPtr p1)); (15%positive, (TPtr p1)); (16%positive, (TPtr p1)); (17%positive, (TPtr p1)); (18%positive, (TPtr p1))];
   Entry f_hash_challenge_2 (Sig [(TPtr p1); (TPtr p1); (TPtr p0); (TPtr p1); (TPtr p0); lo; lo] lo)
     [(1%positive, (TPtr p1)); (2%positive, (TPtr p1)); (3%positive, (TPtr p0)); (4%positive, (TPtr p1)); (5%positive, (TPtr p0)); (6%positive, lo); (7%positive, lo); (8%positive, lo); (9%positive, lo); (10%positive, lo); (11%positive, (TPtr p3)); (12%positive, (TPtr p2)); (13%positive, (TPtr p1)); (14%positive, (TPtr p1)); (15%positive, (TPtr p1)); (16%positive, (TPtr p1)); (17%positive, (TPtr p1)); (18%positive, (TPtr p1))];
   Entry f_hash_challenge_2 (Sig [(TPtr p1); (TPtr p1); (TPtr p1); (TPtr p1); (TPtr p1); lo; lo] lo)
     [(1%positive, (TPtr p1)); (2%positive, (TPtr p1)); (3%positive, (TPtr p1)); (4%positive, (TPtr p1)); (5%positive, (TPtr p1)); (6%positive, lo); (7%positive, lo); (8%positive, lo); (9%positive, lo); (10%positive, lo); (11%positive, (TPtr p3)); (12%positive, (TPtr p2)); (13%positive, (TPtr p1)); (14%positive, (TPtr p1)); (15%positive, (TPtr p1)); (16%positive, (TPtr p1)); (17%positive, (TPtr p1)); (18%positive, (TPtr p1))];
   Entry f_hash_challenge_3 (Sig [(TPtr p1); (TPtr p1); (TPtr p0); (TPtr p1); lo] lo)
     [(1%positive, (TPtr p1)); (2%positive, (TPtr p1)); (3%positive, (TPtr p0)); (4%positive, (TPtr p1)); (5%positive, lo); (6%positive, lo); (7%positive, (TPtr p3)); (8%positive, (TPtr p2)); (9%positive, (TPtr p1)); (10%positive, (TPtr p1)); (11%positive, (TPtr p1)); (12%positive, (TPtr p1)); (13%positive, (TPtr p1)); (14%positive, (TPtr p1))];
   Entry f_hash_challenge_3 (Sig [(TPtr p1); (TPtr p1); (TPtr p1); (TPtr p1); lo] lo)
     [(1%positive, (TPtr p1)); (2%positive, (TPtr p1)); (3%positive, (TPtr p1)); (4%positive, (TPtr p1)); (5%positive, lo); (6%positive, lo); (7%positive, (TPtr p3)); (8%positive, (TPtr p2)); (9%positive, (TPtr p1)); (10%positive, (TPtr p1)); (11%positive, (TPtr p1)); (12%positive, (TPtr p1)); (13%positive, (TPtr p1)); (14%positive, (TPtr p1))];
   Entry f_hash_final (Sig [(TPtr p3)] lo)
     [(1%positive, (TPtr p3)); (2%positive, lo)];
   Entry f_hash_final_x4 (Sig [(TPtr p3)] lo)
     [(1%positive, (TPtr p3)); (2%positive, lo)];
   Entry f_hash_init (Sig [(TPtr p3); lo] lo)
     [(1%positive, (TPtr p3)); (2%positive, lo); (3%positive, lo); (4%positive, lo)];
   Entry f_hash_init_x4 (Sig [(TPtr p3); lo] lo)
     [(1%positive, (TPtr p3)); (2%positive, lo); (3%positive, lo); (4%positive, lo)];
   Entry f_hash_mu (Sig [(TPtr p1); (TPtr p0); (TPtr p0); lo; (TPtr p0); lo; lo] lo)
     [(1%positive, (TPtr p1)); (2%positive, (TPtr p0)); (3%positive, (TPtr p0)); (4%positive, lo); (5%positive, (TPtr p0)); (6%positive, lo); (7%positive, lo); (8%positive, (TPtr p3)); (9%positive, (TPtr p2)); (10%positive, (TPtr p1)); (11%positive, (TPtr p1)); (12%positive, (TPtr p1)); (13%positive, (TPtr p1)); (14%positive, (TPtr p1)); (15%positive, (TPtr p1))];
   Entry f_hash_mu (Sig [(TPtr p1); (TPtr p0); (TPtr p1); lo; (TPtr p0); lo; lo] lo)
     [(1%positive, (TPtr p1)); (2%positive, (TPtr p0)); (3%positive, (TPtr p1)); (4%positive, lo); (5%positive, (TPtr p0)); (6%positive, lo); (7%positive, lo); (8%positive, (TPtr p3)); (9%positive, (TPtr p2)); (10%positive, (TPtr p1)); (11%positive, (TPtr p1)); (12%positive, (TPtr p1)); (13%positive, (TPtr p1)); (14%positive, (TPtr p1)); (15%positive, (TPtr p1))];
   Entry f_hash_squeeze (Sig [(TPtr p3); (TPtr p1); lo] lo)
     [(1%positive, (TPtr p3)); (2%positive, (TPtr p1)); (3%positive, lo); (4%positive, lo)];
   Entry f_hash_squeeze_x4 (Sig [(TPtr p3); (TPtr p5); lo] lo)
     [(1%positive, (TPtr p3)); (2%positive, (TPtr p5)); (3%positive, lo); (4%positive, lo)];
   Entry f_hash_squeeze_x4_4 (Sig [(TPtr p3); (TPtr p1); (TPtr p1); (TPtr p1); (TPtr p1); lo] lo)
     [(1%positive, (TPtr p3)); (2%positive, (TPtr p1)); (3%positive, (TPtr p1)); (4%positive, (TPtr p1)); (5%positive, (TPtr p1)); (6%positive, lo); (7%positive, (TPtr p5))];
   Entry f_hash_update (Sig [(TPtr p3); (TPtr p0); lo] lo)
     [(1%positive, (TPtr p3)); (2%positive, (TPtr p0)); (3%positive, lo); (4%positive, lo)];
   Entry f_hash_update (Sig [(TPtr p3); (TPtr p1); lo] lo)
     [(1%positive, (TPtr p3)); (2%positive, (TPtr p1)); (3%positive, lo); (4%positive, lo)];
   Entry f_hash_update_x4 (Sig [(TPtr p3); (TPtr p4); lo] lo)
     [(1%positive, (TPtr p3)); (2%positive, (TPtr p4)); (3%positive, lo); (4%positive, lo)];
   Entry f_hash_update_x4 (Sig [(TPtr p3); (TPtr p5); lo] lo)
     [(1%positive, (TPtr p3)); (2%positive, (TPtr p5)); (3%positive, lo); (4%positive, lo)];
   Entry f_hash_update_x4_1 (Sig [(TPtr p3); (TPtr p0); lo] lo)
     [(1%positive, (TPtr p3)); (2%positive, (TPtr p0)); (3%positive, lo); (4%positive, (TPtr p4))];
   Entry f_hash_update_x4_4 (Sig [(TPtr p3); (TPtr p0); (TPtr p0); (TPtr p0); (TPtr p0); lo] lo)
     [(1%positive, (TPtr p3)); (2%positive, (TPtr p0)); (3%positive, (TPtr p0)); (4%positive, (TPtr p0)); (5%positive, (TPtr p0)); (6%positive, lo); (7%positive, (TPtr p4))];
   Entry f_hash_update_x4_4 (Sig [(TPtr p3); (TPtr p1); (TPtr p1); (TPtr p1); (TPtr p1); lo] lo)
     [(1%positive, (TPtr p3)); (2%positive, (TPtr p1)); (3%positive, (TPtr p1)); (4%positive, (TPtr p1)); (5%positive, (TPtr p1)); (6%positive, lo); (7%positive, (TPtr p5))];
   Entry f_is_left_child (Sig [lo] lo)
     [(1%positive, lo)];
   Entry f_load_state (Sig [(TPtr p1); (TPtr p0); lo] lo)
     [(1%positive, (TPtr p1)); (2%positive, (TPtr p0)); (3%positive, lo); (4%positive, lo); (5%positive, lo)];
   Entry f_load_state (Sig [(TPtr p1); (TPtr p1); lo] lo)
     [(1%positive, (TPtr p1)); (2%positive, (TPtr p1)); (3%positive, lo); (4%positive, lo); (5%positive, lo)];
   Entry f_masked_xor_u8_array (Sig [(TPtr p1); (TPtr p0); (TPtr p1); lo; lo] lo)
     [(1%positive, (TPtr p1)); (2%positive, (TPtr p0)); (3%positive, (TPtr p1)); (4%positive, lo); (5%positive, lo); (6%positive, lo); (7%positive, lo)];
   Entry f_memcmp (Sig [(TPtr p1); (TPtr p0); lo] lo)
     [(1%positive, (TPtr p1)); (2%positive, (TPtr p0)); (3%positive, lo); (4%positive, (TPtr p1)); (5%positive, (TPtr p0))];
   Entry f_mix_column (Sig [(TPtr p1); lo] lo)
     [(1%positive, (TPtr p1)); (2%positive, lo); (3%positive, lo); (4%positive, lo); (5%positive, lo); (6%positive, lo); (7%positive, lo); (8%positive, lo); (9%positive, lo); (10%positive, lo); (11%positive, lo); (12%positive, lo); (13%positive, lo); (14%positive, lo); (15%positive, lo)];
   Entry f_owf_128 (Sig [(TPtr p0); (TPtr p0); (TPtr p1)] lo)
     [(1%positive, (TPtr p0)); (2%positive, (TPtr p0)); (3%positive, (TPtr p1)); (4%positive, (TPtr p1)); (5%positive, lo); (6%positive, lo); (7%positive, lo)];
   Entry f_owf_128 (Sig [(TPtr p1); (TPtr p1); (TPtr p1)] lo)
     [(1%positive, (TPtr p1)); (2%positive, (TPtr p1)); (3%positive, (TPtr p1)); (4%positive, (TPtr p1)); (5%positive, lo); (6%positive, lo); (7%positive, lo)];
   Entry f_owf_192 (Sig [(TPtr p0); (TPtr p0); (TPtr p1)] lo)
     [(1%positive, (TPtr p0)); (2%positive, (TPtr p0)); (3%positive, (TPtr p1)); (4%positive, (TPtr p1)); (5%positive, lo); (6%positive, lo); (7%positive, lo); (8%positive, lo)];
   Entry f_owf_192 (Sig [(TPtr p1); (TPtr p1); (TPtr p1)] lo)
     [(1%positive, (TPtr p1)); (2%positive, (TPtr p1)); (3%positive, (TPtr p1)); (4%positive, (TPtr p1)); (5%positive, lo); (6%positive, lo); (7%positive, lo); (8%positive, lo)];
   Entry f_owf_256 (Sig [(TPtr p0); (TPtr p0); (TPtr p1)] lo)
     [(1%positive, (TPtr p0)); (2%positive, (TPtr p0)); (3%positive, (TPtr p1)); (4%positive, (TPtr p1)); (5%positive, lo); (6%positive, lo); (7%positive, lo); (8%positive, lo)];
   Entry f_owf_256 (Sig [(TPtr p1); (TPtr p1); (TPtr p1)] lo)
     [(1%positive, (TPtr p1)); (2%positive, (TPtr p1)); (3%positive, (TPtr p1)); (4%positive, (TPtr p1)); (5%positive, lo); (6%positive, lo); (7%positive, lo); (8%positive, lo)];
   Entry f_owf_em_128 (Sig [(TPtr p0); (TPtr p0); (TPtr p1)] lo)
     [(1%positive, (TPtr p0)); (2%positive, (TPtr p0)); (3%positive, (TPtr p1)); (4%positive, (TPtr p1)); (5%positive, lo); (6%positive, lo); (7%positive, lo); (8%positive, lo); (9%positive, (TPtr p1))];
   Entry f_owf_em_128 (Sig [(TPtr p1); (TPtr p1); (TPtr p1)] lo)
     [(1%positive, (TPtr p1)); (2%positive, (TPtr p1)); (3%positive, (TPtr p1)); (4%positive, (TPtr p1)); (5%positive, lo); (6%positive, lo); (7%positive, lo); (8%positive, lo); (9%positive, (TPtr p1))];
   Entry f_owf_em_192 (Sig [(TPtr p0); (TPtr p0); (TPtr p1)] lo)
     [(1%positive, (TPtr p0)); (2%positive, (TPtr p0)); (3%positive, (TPtr p1)); (4%positive, (TPtr p1)); (5%positive, lo); (6%positive, lo); (7%positive, lo); (8%positive, lo); (9%positive, (TPtr p1))];
   Entry f_owf_em_192 (Sig [(TPtr p1); (TPtr p1); (TPtr p1)] lo)
     [(1%positive, (TPtr p1)); (2%positive, (TPtr p1)); (3%positive, (TPtr p1)); (4%positive, (TPtr p1)); (5%positive, lo); (6%positive, lo); (7%positive, lo); (8%positive, lo); (9%positive, (TPtr p1))];
   Entry f_owf_em_256 (Sig [(TPtr p0); (TPtr p0); (TPtr p1)] lo)
     [(1%positive, (TPtr p0)); (2%positive, (TPtr p0)); (3%positive, (TPtr p1)); (4%positive, (TPtr p1)); (5%positive, lo); (6%positive, lo); (7%positive, lo); (8%positive, lo); (9%positive, (TPtr p1))];
   Entry f_owf_em_256 (Sig [(TPtr p1); (TPtr p1); (TPtr p1)] lo)
     [(1%positive, (TPtr p1)); (2%positive, (TPtr p1)); (3%positive, (TPtr p1)); (4%positive, (TPtr p1)); (5%positive, lo); (6%positive, lo); (7%positive, lo); (8%positive, lo); (9%positive, (TPtr p1))];
   Entry f_prg (Sig [(TPtr p1); (TPtr p0); (TPtr p1); lo; lo] lo)
     [(1%positive, (TPtr p1)); (2%positive, (TPtr p0)); (3%positive, (TPtr p1)); (4%positive, lo); (5%positive, lo); (6%positive, (TPtr p1)); (7%positive, (TPtr p1)); (8%positive, lo); (9%positive, lo); (10%positive, (TPtr p1)); (11%positive, lo); (12%positive, (TPtr p1)); (13%positive, lo); (14%positive, (TPtr p1)); (15%positive, lo); (16%positive, (TPtr p1)); (17%positive, lo); (18%positive, (TPtr p1)); (19%positive, lo); (20%positive, (TPtr p1)); (21%positive, lo); (22%positive, (TPtr p1)); (23%positive, lo); (24%positive, (TPtr p1)); (25%positive, lo); (26%positive, (TPtr p1))];
   Entry f_prg (Sig [(TPtr p1); (TPtr p1); (TPtr p1); lo; lo] lo)
     [(1%positive, (TPtr p1)); (2%positive, (TPtr p1)); (3%positive, (TPtr p1)); (4%positive, lo); (5%positive, lo); (6%positive, (TPtr p1)); (7%positive, (TPtr p1)); (8%positive, lo); (9%positive, lo); (10%positive, (TPtr p1)); (11%positive, lo); (12%positive, (TPtr p1)); (13%positive, lo); (14%positive, (TPtr p1)); (15%positive, lo); (16%positive, (TPtr p1)); (17%positive, lo); (18%positive, (TPtr p1)); (19%positive, lo); (20%positive, (TPtr p1)); (21%positive, lo); (22%positive, (TPtr p1)); (23%positive, lo); (24%positive, (TPtr p1)); (25%positive, lo); (26%positive, (TPtr p1))];
   Entry f_rand_bytes (Sig [(TPtr p1); lo] lo)
     [(1%positive, (TPtr p1)); (2%positive, lo); (3%positive, lo)];
   Entry f_rijndael192_encrypt_block (Sig [(TPtr p1); (TPtr p0); (TPtr p1)] lo)
     [(1%positive, (TPtr p1)); (2%positive, (TPtr p0)); (3%positive, (TPtr p1)); (4%positive, (TPtr p1)); (5%positive, lo); (6%positive, lo)];
   Entry f_rijndael192_encrypt_block (Sig [(TPtr p1); (TPtr p1); (TPtr p1)] lo)
     [(1%positive, (TPtr p1)); (2%positive, (TPtr p1)); (3%positive, (TPtr p1)); (4%positive, (TPtr p1)); (5%positive, lo); (6%positive, lo)];
   Entry f_rijndael192_init_round_keys (Sig [(TPtr p1); (TPtr p0)] lo)
     [(1%positive, (TPtr p1)); (2%positive, (TPtr p0)); (3%positive, lo)];
   Entry f_rijndael192_init_round_keys (Sig [(TPtr p1); (TPtr p1)] lo)
     [(1%positive, (TPtr p1)); (2%positive, (TPtr p1)); (3%positive, lo)];
   Entry f_rijndael256_encrypt_block (Sig [(TPtr p1); (TPtr p0); (TPtr p1)] lo)
     [(1%positive, (TPtr p1)); (2%positive, (TPtr p0)); (3%positive, (TPtr p1)); (4%positive, (TPtr p1)); (5%positive, lo); (6%positive, lo)];
   Entry f_rijndael256_encrypt_block (Sig [(TPtr p1); (TPtr p1); (TPtr p1)] lo)
     [(1%positive, (TPtr p1)); (2%positive, (TPtr p1)); (3%positive, (TPtr p1)); (4%positive, (TPtr p1)); (5%positive, lo); (6%positive, lo)];
   Entry f_rijndael256_init_round_keys (Sig [(TPtr p1); (TPtr p0)] lo)
     [(1%positive, (TPtr p1)); (2%positive, (TPtr p0)); (3%positive, lo)];
   Entry f_rijndael256_init_round_keys (Sig [(TPtr p1); (TPtr p1)] lo)
     [(1%positive, (TPtr p1)); (2%positive, (TPtr p1)); (3%positive, lo)];
   Entry f_rot_word (Sig [(TPtr p1)] lo)
     [(1%positive, (TPtr p1)); (2%positive, lo)];
   Entry f_shift_row (Sig [(TPtr p1); lo] lo)
     [(1%positive, (TPtr p1)); (2%positive, lo); (3%positive, (TPtr p1)); (4%positive, lo); (5%positive, lo); (6%positive, lo); (7%positive, lo)];
   Entry f_signature_a_tilde (Sig [(TPtr p1); (TPtr p1)] (TPtr p1))
     [(1%positive, (TPtr p1)); (2%positive, (TPtr p1)); (3%positive, lo); (4%positive, lo); (5%positive, lo); (6%positive, lo)];
   Entry f_signature_c (Sig [(TPtr p1); lo; (TPtr p1)] (TPtr p1))
     [(1%positive, (TPtr p1)); (2%positive, lo); (3%positive, (TPtr p1)); (4%positive, lo); (5%positive, lo); (6%positive, lo)];
   Entry f_signature_chall_3 (Sig [(TPtr p1); (TPtr p1)] (TPtr p1))
     [(1%positive, (TPtr p1)); (2%positive, (TPtr p1)); (3%positive, lo)];
   Entry f_signature_com (Sig [(TPtr p1); lo; (TPtr p1)] (TPtr p1))
     [(1%positive, (TPtr p1)); (2%positive, lo); (3%positive, (TPtr p1)); (4%positive, lo); (5%positive, lo); (6%positive, lo); (7%positive, lo); (8%positive, lo)];
   Entry f_signature_d (Sig [(TPtr p1); (TPtr p1)] (TPtr p1))
     [(1%positive, (TPtr p1)); (2%positive, (TPtr p1)); (3%positive, lo); (4%positive, lo); (5%positive, lo); (6%positive, lo)];
   Entry f_signature_iv (Sig [(TPtr p1); (TPtr p1)] (TPtr p1))
     [(1%positive, (TPtr p1)); (2%positive, (TPtr p1))];
   Entry f_signature_pdec (Sig [(TPtr p1); lo; (TPtr p1)] (TPtr p1))
     [(1%positive, (TPtr p1)); (2%positive, lo); (3%positive, (TPtr p1)); (4%positive, lo); (5%positive, lo); (6%positive, lo); (7%positive, lo); (8%positive, lo)];
   Entry f_signature_u_tilde (Sig [(TPtr p1); (TPtr p1)] (TPtr p1))
     [(1%positive, (TPtr p1)); (2%positive, (TPtr p1)); (3%positive, lo); (4%positive, lo); (5%positive, lo)];
   Entry f_store_state (Sig [(TPtr p1); (TPtr p1); lo] lo)
     [(1%positive, (TPtr p1)); (2%positive, (TPtr p1)); (3%positive, lo); (4%positive, lo)];
   Entry f_sub_bytes (Sig [(TPtr p1); lo] lo)
     [(1%positive, (TPtr p1)); (2%positive, lo); (3%positive, lo); (4%positive, lo); (5%positive, lo); (6%positive, lo); (7%positive, lo)];
   Entry f_sub_words (Sig [(TPtr p1)] lo)
     [(1%positive, (TPtr p1)); (2%positive, lo); (3%positive, lo); (4%positive, lo); (5%positive, lo)];
   Entry f_vec_com_clear (Sig [(TPtr p8)] lo)
     [(1%positive, (TPtr p8))];
   Entry f_vec_com_rec_clear (Sig [(TPtr p8)] lo)
     [(1%positive, (TPtr p8))];
   Entry f_vector_commitment (Sig [(TPtr p1); (TPtr p1); (TPtr p1); lo; (TPtr p8); lo] lo)
     [(1%positive, (TPtr p1)); (2%positive, (TPtr p1)); (3%positive, (TPtr p1)); (4%positive, lo); (5%positive, (TPtr p8)); (6%positive, lo); (7%positive, lo); (8%positive, lo); (9%positive, (TPtr p7)); (10%positive, (TPtr p5)); (11%positive, (TPtr p1)); (12%positive, (TPtr p1)); (13%positive, (TPtr p1)); (14%positive, (TPtr p1)); (15%positive, (TPtr p1)); (16%positive, lo); (17%positive, lo); (18%positive, (TPtr p3)); (19%positive, (TPtr p2)); (20%positive, (TPtr p1)); (21%positive, (TPtr p1)); (22%positive, (TPtr p1)); (23%positive, (TPtr p1)); (24%positive, (TPtr p1)); (25%positive, (TPtr p1)); (26%positive, (TPtr p3)); (27%positive, (TPtr p2)); (28%positive, (TPtr p1)); (29%positive, (TPtr p1)); (30%positive, (TPtr p1)); (31%positive, (TPtr p1)); (32%positive, (TPtr p1)); (33%positive, (TPtr p1)); (34%positive, (TPtr p3)); (35%positive, (TPtr p2)); (36%positive, (TPtr p1)); (37%positive, (TPtr p1)); (38%positive, (TPtr p1)); (39%positive, (TPtr p1)); (40%positive, (TPtr p1)); (41%positive, (TPtr p1)); (42%positive, lo)];
   Entry f_vector_open (Sig [(TPtr p1); (TPtr p1); (TPtr p1); (TPtr p1); (TPtr p1); lo; lo] lo)
     [(1%positive, (TPtr p1)); (2%positive, (TPtr p1)); (3%positive, (TPtr p1)); (4%positive, (TPtr p1)); (5%positive, (TPtr p1)); (6%positive, lo); (7%positive, lo); (8%positive, lo); (9%positive, lo); (10%positive, lo); (11%positive, lo); (12%positive, lo)];
   Entry f_vector_reconstruction (Sig [(TPtr p0); (TPtr p0); (TPtr p0); (TPtr p1); lo; lo; (TPtr p8)] lo)
     [(1%positive, (TPtr p0)); (2%positive, (TPtr p0)); (3%positive, (TPtr p0)); (4%positive, (TPtr p1)); (5%positive, lo); (6%positive, lo); (7%positive, (TPtr p8)); (8%positive, lo); (9%positive, lo); (10%positive, lo); (11%positive, lo); (12%positive, lo); (13%positive, lo); (14%positive, lo); (15%positive, lo); (16%positive, lo); (17%positive, lo); (18%positive, (TPtr p1)); (19%positive, lo); (20%positive, lo); (21%positive, lo); (22%positive, lo); (23%positive, (TPtr p3)); (24%positive, (TPtr p2)); (25%positive, (TPtr p1)); (26%positive, (TPtr p1)); (27%positive, (TPtr p1)); (28%positive, (TPtr p1)); (29%positive, (TPtr p1)); (30%positive, (TPtr p1)); (31%positive, lo); (32%positive, lo); (33%positive, lo); (34%positive, lo); (35%positive, (TPtr p3)); (36%positive, (TPtr p2)); (37%positive, (TPtr p1)); (38%positive, (TPtr p1)); (39%positive, (TPtr p1)); (40%positive, (TPtr p1)); (41%positive, (TPtr p1)); (42%positive, (TPtr p1)); (43%positive, lo); (44%positive, (TPtr p3)); (45%positive, (TPtr p2)); (46%positive, (TPtr p1)); (47%positive, (TPtr p1)); (48%positive, (TPtr p1)); (49%positive, (TPtr p1)); (50%positive, (TPtr p1)); (51%positive, (TPtr p1)); (52%positive, lo); (53%positive, (TPtr p3)); (54%positive, (TPtr p2)); (55%positive, (TPtr p1)); (56%positive, (TPtr p1)); (57%positive, (TPtr p1)); (58%positive, (TPtr p1)); (59%positive, (TPtr p1)); (60%positive, (TPtr p1)); (61%positive, lo); (62%positive, lo); (63%positive, lo); (64%positive, lo); (65%positive, (TPtr p3)); (66%positive, (TPtr p2)); (67%positive, (TPtr p1)); (68%positive, (TPtr p1)); (69%positive, (TPtr p1)); (70%positive, (TPtr p1)); (71%positive, (TPtr p1)); (72%positive, (TPtr p1)); (73%positive, lo); (74%positive, (TPtr p3)); (75%positive, (TPtr p2)); (76%positive, (TPtr p1)); (77%positive, (TPtr p1)); (78%positive, (TPtr p1)); (79%positive, (TPtr p1)); (80%positive, (TPtr p1)); (81%positive, (TPtr p1))];
   Entry f_vole_commit (Sig [(TPtr p1); (TPtr p1); lo; (TPtr p1); (TPtr p1); (TPtr p8); (TPtr p1); (TPtr p1); (TPtr p5)] lo)
     [(1%positive, (TPtr p1)); (2%positive, (TPtr p1)); (3%positive, lo); (4%positive, (TPtr p1)); (5%positive, (TPtr p1)); (6%positive, (TPtr p8)); (7%positive, (TPtr p1)); (8%positive, (TPtr p1)); (9%positive, (TPtr p5)); (10%positive, lo); (11%positive, lo); (12%positive, lo); (13%positive, lo); (14%positive, lo); (15%positive, lo); (16%positive, lo); (17%positive, (TPtr p1)); (18%positive, (TPtr p1)); (19%positive, (TPtr p1)); (20%positive, (TPtr p1)); (21%positive, (TPtr p3)); (22%positive, (TPtr p2)); (23%positive, (TPtr p1)); (24%positive, (TPtr p1)); (25%positive, (TPtr p1)); (26%positive, (TPtr p1)); (27%positive, (TPtr p1)); (28%positive, (TPtr p1)); (29%positive, lo); (30%positive, lo); (31%positive, lo); (32%positive, lo)];
   Entry f_vole_hash (Sig [(TPtr p1); (TPtr p1); (TPtr p1); lo; lo] lo)
     [(1%positive, (TPtr p1)); (2%positive, (TPtr p1)); (3%positive, (TPtr p1)); (4%positive, lo); (5%positive, lo); (6%positive, lo)];
   Entry f_vole_hash_128 (Sig [(TPtr p1); (TPtr p1); (TPtr p1); lo] lo)
     [(1%positive, (TPtr p1)); (2%positive, (TPtr p1)); (3%positive, (TPtr p1)); (4%positive, lo); (5%positive, (TPtr p1)); (6%positive, (TPtr p1)); (7%positive, (TPtr p1)); (8%positive, (TPtr p1)); (9%positive, (TPtr p1)); (10%positive, (TPtr p1)); (11%positive, (TPtr p1)); (12%positive, lo); (13%positive, (TPtr p1)); (14%positive, (TPtr p1)); (15%positive, (TPtr p1)); (16%positive, (TPtr p1)); (17%positive, lo); (18%positive, (TPtr p1)); (19%positive, (TPtr p1)); (20%positive, lo); (21%positive, lo); (22%positive, (TPtr p1)); (23%positive, lo); (24%positive, lo); (25%positive, (TPtr p1)); (26%positive, (TPtr p1)); (27%positive, (TPtr p1)); (28%positive, (TPtr p1)); (29%positive, (TPtr p1)); (30%positive, lo); (31%positive, lo); (32%positive, (TPtr p1)); (33%positive, (TPtr p1)); (34%positive, (TPtr p1)); (35%positive, (TPtr p1)); (36%positive, (TPtr p1)); (37%positive, lo); (38%positive, lo)];
   Entry f_vole_hash_192 (Sig [(TPtr p1); (TPtr p1); (TPtr p1); lo] lo)
     [(1%positive, (TPtr p1)); (2%positive, (TPtr p1)); (3%positive, (TPtr p1)); (4%positive, lo); (5%positive, (TPtr p1)); (6%positive, (TPtr p1)); (7%positive, (TPtr p1)); (8%positive, (TPtr p1)); (9%positive, (TPtr p1)); (10%positive, (TPtr p1)); (11%positive, (TPtr p1)); (12%positive, lo); (13%positive, (TPtr p1)); (14%positive, (TPtr p1)); (15%positive, (TPtr p1)); (16%positive, (TPtr p1)); (17%positive, lo); (18%positive, (TPtr p1)); (19%positive, (TPtr p1)); (20%positive, lo); (21%positive, lo); (22%positive, lo); (23%positive, lo); (24%positive, (TPtr p1)); (25%positive, lo); (26%positive, lo); (27%positive, (TPtr p1)); (28%positive, (TPtr p1)); (29%positive, (TPtr p1)); (30%positive, (TPtr p1)); (31%positive, (TPtr p1)); (32%positive, lo); (33%positive, lo); (34%positive, lo); (35%positive, lo); (36%positive, (TPtr p1)); (37%positive, (TPtr p1)); (38%positive, (TPtr p1)); (39%positive, (TPtr p1)); (40%positive, (TPtr p1)); (41%positive, lo); (42%positive, lo); (43%positive, lo); (44%positive, lo)];
   Entry f_vole_hash_256 (Sig [(TPtr p1); (TPtr p1); (TPtr p1); lo] lo)
     [(1%positive, (TPtr p1)); (2%positive, (TPtr p1)); (3%positive, (TPtr p1)); (4%positive, lo); (5%positive, (TPtr p1)); (6%positive, (TPtr p1)); (7%positive, (TPtr p1)); (8%positive, (TPtr p1)); (9%positive, (TPtr p1)); (10%positive, (TPtr p1)); (11%positive, (TPtr p1)); (12%positive, lo); (13%positive, (TPtr p1)); (14%positive, (TPtr p1)); (15%positive, (TPtr p1)); (16%positive, (TPtr p1)); (17%positive, lo); (18%positive, (TPtr p1)); (19%positive, (TPtr p1)); (20%positive, lo); (21%positive, lo); (22%positive, lo); (23%positive, lo); (24%positive, (TPtr p1)); (25%positive, lo); (26%positive, lo); (27%positive, (TPtr p1)); (28%positive, (TPtr p1)); (29%positive, (TPtr p1)); (30%positive, (TPtr p1)); (31%positive, (TPtr p1)); (32%positive, lo); (33%positive, lo); (34%positive, lo); (35%positive, lo); (36%positive, (TPtr p1)); (37%positive, (TPtr p1)); (38%positive, (TPtr p1)); (39%positive, (TPtr p1)); (40%positive, (TPtr p1)); (41%positive, lo); (42%positive, lo); (43%positive, lo); (44%positive, lo)];
   Entry f_vole_reconstruct (Sig [(TPtr p0); (TPtr p0); (TPtr p4); (TPtr p4); (TPtr p1); (TPtr p5); lo; (TPtr p1)] lo)
     [(1%positive, (TPtr p0)); (2%positive, (TPtr p0)); (3%positive, (TPtr p4)); (4%positive, (TPtr p4)); (5%positive, (TPtr p1)); (6%positive, (TPtr p5)); (7%positive, lo); (8%positive, (TPtr p1)); (9%positive, lo); (10%positive, lo); (11%positive, lo); (12%positive, lo); (13%positive, lo); (14%positive, lo); (15%positive, lo); (16%positive, lo); (17%positive, (TPtr p1)); (18%positive, (TPtr p1)); (19%positive, (TPtr p3)); (20%positive, (TPtr p2)); (21%positive, (TPtr p1)); (22%positive, (TPtr p1)); (23%positive, (TPtr p1)); (24%positive, (TPtr p1)); (25%positive, (TPtr p1)); (26%positive, (TPtr p1)); (27%positive, (TPtr p8)); (28%positive, (TPtr p5)); (29%positive, (TPtr p5)); (30%positive, (TPtr p5)); (31%positive, (TPtr p5)); (32%positive, (TPtr p1)); (33%positive, lo); (34%positive, (TPtr p1)); (35%positive, (TPtr p1)); (36%positive, (TPtr p1)); (37%positive, lo); (38%positive, lo); (39%positive, lo); (40%positive, lo); (41%positive, (TPtr p1)); (42%positive, lo); (43%positive, lo); (44%positive, lo); (45%positive, lo)];
   Entry f_xor_u8_array (Sig [(TPtr p0); (TPtr p1); (TPtr p1); lo] lo)
     [(1%positive, (TPtr p0)); (2%positive, (TPtr p1)); (3%positive, (TPtr p1)); (4%positive, lo); (5%positive, lo)];
   Entry f_xor_u8_array (Sig [(TPtr p1); (TPtr p1); (TPtr p1); lo] lo)
     [(1%positive, (TPtr p1)); (2%positive, (TPtr p1)); (3%positive, (TPtr p1)); (4%positive, lo); (5%positive, lo)];
   Entry f_zk_hash_128_finalize (Sig [(TPtr p1); (TPtr p6); (TPtr p1)] lo)
     [(1%positive, (TPtr p1)); (2%positive, (TPtr p6)); (3%positive, (TPtr p1)); (4%positive, (TPtr p1)); (5%positive, (TPtr p1)); (6%positive, (TPtr p1)); (7%positive, (TPtr p1)); (8%positive, (TPtr p1)); (9%positive, (TPtr p1)); (10%positive, (TPtr p1)); (11%positive, (TPtr p1)); (12%positive, lo); (13%positive, lo)];
   Entry f_zk_hash_128_init (Sig [(TPtr p6); (TPtr p1)] lo)
     [(1%positive, (TPtr p6)); (2%positive, (TPtr p1)); (3%positive, (TPtr p1)); (4%positive, (TPtr p1)); (5%positive, (TPtr p1)); (6%positive, (TPtr p1)); (7%positive, (TPtr p1)); (8%positive, (TPtr p1)); (9%positive, (TPtr p1)); (10%positive, (TPtr p1)); (11%positive, lo)];
   Entry f_zk_hash_128_update (Sig [(TPtr p6); (TPtr p1)] lo)
     [(1%positive, (TPtr p6)); (2%positive, (TPtr p1)); (3%positive, (TPtr p1)); (4%positive, (TPtr p1)); (5%positive, (TPtr p1)); (6%positive, lo); (7%positive, lo); (8%positive, (TPtr p1)); (9%positive, (TPtr p1)); (10%positive, lo); (11%positive, lo)];
   Entry f_zk_hash_192_finalize (Sig [(TPtr p1); (TPtr p6); (TPtr p1)] lo)
     [(1%positive, (TPtr p1)); (2%positive, (TPtr p6)); (3%positive, (TPtr p1)); (4%positive, (TPtr p1)); (5%positive, (TPtr p1)); (6%positive, (TPtr p1)); (7%positive, (TPtr p1)); (8%positive, (TPtr p1)); (9%positive, (TPtr p1)); (10%positive, (TPtr p1)); (11%positive, (TPtr p1)); (12%positive, lo); (13%positive, lo); (14%positive, lo); (15%positive, lo)];
   Entry f_zk_hash_192_init (Sig [(TPtr p6); (TPtr p1)] lo)
     [(1%positive, (TPtr p6)); (2%positive, (TPtr p1)); (3%positive, (TPtr p1)); (4%positive, (TPtr p1)); (5%positive, (TPtr p1)); (6%positive, (TPtr p1)); (7%positive, (TPtr p1)); (8%positive, (TPtr p1)); (9%positive, (TPtr p1)); (10%positive, (TPtr p1)); (11%positive, lo)];
   Entry f_zk_hash_192_update (Sig [(TPtr p6); (TPtr p1)] lo)
     [(1%positive, (TPtr p6)); (2%positive, (TPtr p1)); (3%positive, (TPtr p1)); (4%positive, (TPtr p1)); (5%positive, (TPtr p1)); (6%positive, lo); (7%positive, lo); (8%positive, lo); (9%positive, lo); (10%positive, (TPtr p1)); (11%positive, (TPtr p1)); (12%positive, lo); (13%positive, lo); (14%positive, lo); (15%positive, lo)];
   Entry f_zk_hash_256_finalize (Sig [(TPtr p1); (TPtr p6); (TPtr p1)] lo)
     [(1%positive, (TPtr p1)); (2%positive, (TPtr p6)); (3%positive, (TPtr p1)); (4%positive, (TPtr p1)); (5%positive, (TPtr p1)); (6%positive, (TPtr p1)); (7%positive, (TPtr p1)); (8%positive, (TPtr p1)); (9%positive, (TPtr p1)); (10%positive, (TPtr p1)); (11%positive, (TPtr p1)); (12%positive, lo); (13%positive, lo); (14%positive, lo); (15%positive, lo)];
   Entry f_zk_hash_256_init (Sig [(TPtr p6); (TPtr p1)] lo)
     [(1%positive, (TPtr p6)); (2%positive, (TPtr p1)); (3%positive, (TPtr p1)); (4%positive, (TPtr p1)); (5%positive, (TPtr p1)); (6%positive, (TPtr p1)); (7%positive, (TPtr p1)); (8%positive, (TPtr p1)); (9%positive, (TPtr p1)); (10%positive, (TPtr p1)); (11%positive, lo)];
   Entry f_zk_hash_256_update (Sig [(TPtr p6); (TPtr p1)] lo)
     [(1%positive, (TPtr p6)); (2%positive, (TPtr p1)); (3%positive, (TPtr p1)); (4%positive, (TPtr p1)); (5%positive, (TPtr p1)); (6%positive, lo); (7%positive, lo); (8%positive, lo); (9%positive, lo); (10%positive, (TPtr p1)); (11%positive, (TPtr p1)); (12%positive, lo); (13%positive, lo); (14%positive, lo); (15%positive, lo)]].
