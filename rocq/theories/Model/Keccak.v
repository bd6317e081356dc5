(** The Keccak-f[1600] permutation as implemented by sha3/opt64 (64-bit, all rounds unrolled,
    no lane complementing: KeccakP-1600-opt64-config.h defines neither
    KeccakP1600_useLaneComplementing nor KeccakP1600_useSHLD; little-endian byte order).

    The C macros are rendered assignment by assignment: each C assignment is one [let]. *)
From Verif.Model Require Export Base.

(** the 25 lanes Aba .. Asu (KeccakP-1600-64.macros:17-33 declareABCDE), in the order of the
    state array *)
Inductive lanes : Type :=
| Lanes (Aba Abe Abi Abo Abu Aga Age Agi Ago Agu Aka Ake Aki Ako Aku Ama Ame Ami Amo Amu Asa Ase Asi Aso Asu : N).

(** ~a on uint64_t *)
Definition not64 (a : N) : N := N.lnot a 64.

(** KeccakP-1600-opt64.c:45 ROL64(a, offset), for 0 < offset < 64 *)
Definition ROL64 (a offset : N) : N :=
  N.lxor ((N.shiftl a offset) mod 2 ^ 64) (N.shiftr a (64 - offset)).

(** KeccakP-1600-opt64.c:58-82 KeccakF1600RoundConstants *)
Definition KeccakF1600RoundConstants : list N :=
  [0x0000000000000001; 0x0000000000008082; 0x800000000000808a; 0x8000000080008000;
   0x000000000000808b; 0x0000000080000001; 0x8000000080008081; 0x8000000000008009;
   0x000000000000008a; 0x0000000000000088; 0x0000000080008009; 0x000000008000000a;
   0x000000008000808b; 0x800000000000008b; 0x8000000000008089; 0x8000000000008003;
   0x8000000000008002; 0x8000000000000080; 0x000000000000800a; 0x800000008000000a;
   0x8000000080008081; 0x8000000000008080; 0x0000000080000001; 0x8000000080008008].

(** the column parities Ca, Ce, Ci, Co, Cu carried from one round to the next *)
Inductive parities : Type := Par (Ca Ce Ci Co Cu : N).

(** KeccakP-1600-64.macros:35-40 prepareTheta *)
Definition prepareTheta (A : lanes) : parities :=
  let '(Lanes Aba Abe Abi Abo Abu Aga Age Agi Ago Agu Aka Ake Aki Ako Aku Ama Ame Ami Amo Amu Asa Ase Asi Aso Asu) := A in
  Par (N.lxor (N.lxor (N.lxor (N.lxor Aba Aga) Aka) Ama) Asa)
      (N.lxor (N.lxor (N.lxor (N.lxor Abe Age) Ake) Ame) Ase)
      (N.lxor (N.lxor (N.lxor (N.lxor Abi Agi) Aki) Ami) Asi)
      (N.lxor (N.lxor (N.lxor (N.lxor Abo Ago) Ako) Amo) Aso)
      (N.lxor (N.lxor (N.lxor (N.lxor Abu Agu) Aku) Amu) Asu).

(** KeccakP-1600-64.macros:254-366 thetaRhoPiChiIotaPrepareTheta(i, A, E), the branch without
    lane complementing; [rc] is KeccakF1600RoundConstants[i] *)
Definition thetaRhoPiChiIotaPrepareTheta (rc : N) (AC : lanes * parities) : lanes * parities :=
  let '(Lanes Aba Abe Abi Abo Abu Aga Age Agi Ago Agu Aka Ake Aki Ako Aku Ama Ame Ami Amo Amu Asa Ase Asi Aso Asu, Par Ca Ce Ci Co Cu) := AC in
  let Da := N.lxor Cu (ROL64 Ce 1) in
  let De := N.lxor Ca (ROL64 Ci 1) in
  let Di := N.lxor Ce (ROL64 Co 1) in
  let Do := N.lxor Ci (ROL64 Cu 1) in
  let Du := N.lxor Co (ROL64 Ca 1) in
  let Aba := N.lxor Aba Da in
  let Bba := Aba in
  let Age := N.lxor Age De in
  let Bbe := ROL64 Age 44 in
  let Aki := N.lxor Aki Di in
  let Bbi := ROL64 Aki 43 in
  let Amo := N.lxor Amo Do in
  let Bbo := ROL64 Amo 21 in
  let Asu := N.lxor Asu Du in
  let Bbu := ROL64 Asu 14 in
  let Eba := N.lxor Bba (N.land (not64 Bbe) Bbi) in
  let Eba := N.lxor Eba rc in
  let Ca := Eba in
  let Ebe := N.lxor Bbe (N.land (not64 Bbi) Bbo) in
  let Ce := Ebe in
  let Ebi := N.lxor Bbi (N.land (not64 Bbo) Bbu) in
  let Ci := Ebi in
  let Ebo := N.lxor Bbo (N.land (not64 Bbu) Bba) in
  let Co := Ebo in
  let Ebu := N.lxor Bbu (N.land (not64 Bba) Bbe) in
  let Cu := Ebu in
  let Abo := N.lxor Abo Do in
  let Bga := ROL64 Abo 28 in
  let Agu := N.lxor Agu Du in
  let Bge := ROL64 Agu 20 in
  let Aka := N.lxor Aka Da in
  let Bgi := ROL64 Aka 3 in
  let Ame := N.lxor Ame De in
  let Bgo := ROL64 Ame 45 in
  let Asi := N.lxor Asi Di in
  let Bgu := ROL64 Asi 61 in
  let Ega := N.lxor Bga (N.land (not64 Bge) Bgi) in
  let Ca := N.lxor Ca Ega in
  let Ege := N.lxor Bge (N.land (not64 Bgi) Bgo) in
  let Ce := N.lxor Ce Ege in
  let Egi := N.lxor Bgi (N.land (not64 Bgo) Bgu) in
  let Ci := N.lxor Ci Egi in
  let Ego := N.lxor Bgo (N.land (not64 Bgu) Bga) in
  let Co := N.lxor Co Ego in
  let Egu := N.lxor Bgu (N.land (not64 Bga) Bge) in
  let Cu := N.lxor Cu Egu in
  let Abe := N.lxor Abe De in
  let Bka := ROL64 Abe 1 in
  let Agi := N.lxor Agi Di in
  let Bke := ROL64 Agi 6 in
  let Ako := N.lxor Ako Do in
  let Bki := ROL64 Ako 25 in
  let Amu := N.lxor Amu Du in
  let Bko := ROL64 Amu 8 in
  let Asa := N.lxor Asa Da in
  let Bku := ROL64 Asa 18 in
  let Eka := N.lxor Bka (N.land (not64 Bke) Bki) in
  let Ca := N.lxor Ca Eka in
  let Eke := N.lxor Bke (N.land (not64 Bki) Bko) in
  let Ce := N.lxor Ce Eke in
  let Eki := N.lxor Bki (N.land (not64 Bko) Bku) in
  let Ci := N.lxor Ci Eki in
  let Eko := N.lxor Bko (N.land (not64 Bku) Bka) in
  let Co := N.lxor Co Eko in
  let Eku := N.lxor Bku (N.land (not64 Bka) Bke) in
  let Cu := N.lxor Cu Eku in
  let Abu := N.lxor Abu Du in
  let Bma := ROL64 Abu 27 in
  let Aga := N.lxor Aga Da in
  let Bme := ROL64 Aga 36 in
  let Ake := N.lxor Ake De in
  let Bmi := ROL64 Ake 10 in
  let Ami := N.lxor Ami Di in
  let Bmo := ROL64 Ami 15 in
  let Aso := N.lxor Aso Do in
  let Bmu := ROL64 Aso 56 in
  let Ema := N.lxor Bma (N.land (not64 Bme) Bmi) in
  let Ca := N.lxor Ca Ema in
  let Eme := N.lxor Bme (N.land (not64 Bmi) Bmo) in
  let Ce := N.lxor Ce Eme in
  let Emi := N.lxor Bmi (N.land (not64 Bmo) Bmu) in
  let Ci := N.lxor Ci Emi in
  let Emo := N.lxor Bmo (N.land (not64 Bmu) Bma) in
  let Co := N.lxor Co Emo in
  let Emu := N.lxor Bmu (N.land (not64 Bma) Bme) in
  let Cu := N.lxor Cu Emu in
  let Abi := N.lxor Abi Di in
  let Bsa := ROL64 Abi 62 in
  let Ago := N.lxor Ago Do in
  let Bse := ROL64 Ago 55 in
  let Aku := N.lxor Aku Du in
  let Bsi := ROL64 Aku 39 in
  let Ama := N.lxor Ama Da in
  let Bso := ROL64 Ama 41 in
  let Ase := N.lxor Ase De in
  let Bsu := ROL64 Ase 2 in
  let Esa := N.lxor Bsa (N.land (not64 Bse) Bsi) in
  let Ca := N.lxor Ca Esa in
  let Ese := N.lxor Bse (N.land (not64 Bsi) Bso) in
  let Ce := N.lxor Ce Ese in
  let Esi := N.lxor Bsi (N.land (not64 Bso) Bsu) in
  let Ci := N.lxor Ci Esi in
  let Eso := N.lxor Bso (N.land (not64 Bsu) Bsa) in
  let Co := N.lxor Co Eso in
  let Esu := N.lxor Bsu (N.land (not64 Bsa) Bse) in
  let Cu := N.lxor Cu Esu in
  (Lanes Eba Ebe Ebi Ebo Ebu Ega Ege Egi Ego Egu Eka Eke Eki Eko Eku Ema Eme Emi Emo Emu Esa Ese Esi Eso Esu, Par Ca Ce Ci Co Cu).

(** KeccakP-1600-64.macros:370-457 thetaRhoPiChiIota(i, A, E) (last round) *)
Definition thetaRhoPiChiIota (rc : N) (AC : lanes * parities) : lanes :=
  let '(Lanes Aba Abe Abi Abo Abu Aga Age Agi Ago Agu Aka Ake Aki Ako Aku Ama Ame Ami Amo Amu Asa Ase Asi Aso Asu, Par Ca Ce Ci Co Cu) := AC in
  let Da := N.lxor Cu (ROL64 Ce 1) in
  let De := N.lxor Ca (ROL64 Ci 1) in
  let Di := N.lxor Ce (ROL64 Co 1) in
  let Do := N.lxor Ci (ROL64 Cu 1) in
  let Du := N.lxor Co (ROL64 Ca 1) in
  let Aba := N.lxor Aba Da in
  let Bba := Aba in
  let Age := N.lxor Age De in
  let Bbe := ROL64 Age 44 in
  let Aki := N.lxor Aki Di in
  let Bbi := ROL64 Aki 43 in
  let Amo := N.lxor Amo Do in
  let Bbo := ROL64 Amo 21 in
  let Asu := N.lxor Asu Du in
  let Bbu := ROL64 Asu 14 in
  let Eba := N.lxor Bba (N.land (not64 Bbe) Bbi) in
  let Eba := N.lxor Eba rc in
  let Ebe := N.lxor Bbe (N.land (not64 Bbi) Bbo) in
  let Ebi := N.lxor Bbi (N.land (not64 Bbo) Bbu) in
  let Ebo := N.lxor Bbo (N.land (not64 Bbu) Bba) in
  let Ebu := N.lxor Bbu (N.land (not64 Bba) Bbe) in
  let Abo := N.lxor Abo Do in
  let Bga := ROL64 Abo 28 in
  let Agu := N.lxor Agu Du in
  let Bge := ROL64 Agu 20 in
  let Aka := N.lxor Aka Da in
  let Bgi := ROL64 Aka 3 in
  let Ame := N.lxor Ame De in
  let Bgo := ROL64 Ame 45 in
  let Asi := N.lxor Asi Di in
  let Bgu := ROL64 Asi 61 in
  let Ega := N.lxor Bga (N.land (not64 Bge) Bgi) in
  let Ege := N.lxor Bge (N.land (not64 Bgi) Bgo) in
  let Egi := N.lxor Bgi (N.land (not64 Bgo) Bgu) in
  let Ego := N.lxor Bgo (N.land (not64 Bgu) Bga) in
  let Egu := N.lxor Bgu (N.land (not64 Bga) Bge) in
  let Abe := N.lxor Abe De in
  let Bka := ROL64 Abe 1 in
  let Agi := N.lxor Agi Di in
  let Bke := ROL64 Agi 6 in
  let Ako := N.lxor Ako Do in
  let Bki := ROL64 Ako 25 in
  let Amu := N.lxor Amu Du in
  let Bko := ROL64 Amu 8 in
  let Asa := N.lxor Asa Da in
  let Bku := ROL64 Asa 18 in
  let Eka := N.lxor Bka (N.land (not64 Bke) Bki) in
  let Eke := N.lxor Bke (N.land (not64 Bki) Bko) in
  let Eki := N.lxor Bki (N.land (not64 Bko) Bku) in
  let Eko := N.lxor Bko (N.land (not64 Bku) Bka) in
  let Eku := N.lxor Bku (N.land (not64 Bka) Bke) in
  let Abu := N.lxor Abu Du in
  let Bma := ROL64 Abu 27 in
  let Aga := N.lxor Aga Da in
  let Bme := ROL64 Aga 36 in
  let Ake := N.lxor Ake De in
  let Bmi := ROL64 Ake 10 in
  let Ami := N.lxor Ami Di in
  let Bmo := ROL64 Ami 15 in
  let Aso := N.lxor Aso Do in
  let Bmu := ROL64 Aso 56 in
  let Ema := N.lxor Bma (N.land (not64 Bme) Bmi) in
  let Eme := N.lxor Bme (N.land (not64 Bmi) Bmo) in
  let Emi := N.lxor Bmi (N.land (not64 Bmo) Bmu) in
  let Emo := N.lxor Bmo (N.land (not64 Bmu) Bma) in
  let Emu := N.lxor Bmu (N.land (not64 Bma) Bme) in
  let Abi := N.lxor Abi Di in
  let Bsa := ROL64 Abi 62 in
  let Ago := N.lxor Ago Do in
  let Bse := ROL64 Ago 55 in
  let Aku := N.lxor Aku Du in
  let Bsi := ROL64 Aku 39 in
  let Ama := N.lxor Ama Da in
  let Bso := ROL64 Ama 41 in
  let Ase := N.lxor Ase De in
  let Bsu := ROL64 Ase 2 in
  let Esa := N.lxor Bsa (N.land (not64 Bse) Bsi) in
  let Ese := N.lxor Bse (N.land (not64 Bsi) Bso) in
  let Esi := N.lxor Bsi (N.land (not64 Bso) Bsu) in
  let Eso := N.lxor Bso (N.land (not64 Bsu) Bsa) in
  let Esu := N.lxor Bsu (N.land (not64 Bsa) Bse) in
  Lanes Eba Ebe Ebi Ebo Ebu Ega Ege Egi Ego Egu Eka Eke Eki Eko Eku Ema Eme Emi Emo Emu Esa Ese Esi Eso Esu.

(** KeccakP-1600-unrolling.macros:18-43 rounds24: prepareTheta, 23 rounds, the last round.
    (A and E alternate as source and destination; here the value is passed on.) *)
Definition rounds24 (A : lanes) : res lanes :=
  let! AC := foldM (fun AC i => let! rc := aget KeccakF1600RoundConstants i in
                                Ok (thetaRhoPiChiIotaPrepareTheta rc AC))
                   (Nrange 23) (A, prepareTheta A) in
  let! rc := aget KeccakF1600RoundConstants 23 in
  Ok (thetaRhoPiChiIota rc AC).

(** KeccakP-1600-64.macros:461-486 copyFromState: lane i is the uint64_t at byte 8i of the state
    (little endian) *)
Definition copyFromState (st : bytes) : res lanes :=
  let! ls := mapM (fun i => let! b := slice st (8 * i) 8 in Ok (le_val b)) (Nrange 25) in
  match ls with
  | [Aba; Abe; Abi; Abo; Abu; Aga; Age; Agi; Ago; Agu; Aka; Ake; Aki; Ako; Aku; Ama; Ame; Ami; Amo; Amu; Asa; Ase; Asi; Aso; Asu] =>
      Ok (Lanes Aba Abe Abi Abo Abu Aga Age Agi Ago Agu Aka Ake Aki Ako Aku Ama Ame Ami Amo Amu Asa Ase Asi Aso Asu)
  | _ => UB
  end.

(** KeccakP-1600-64.macros:488-513 copyToState *)
Definition copyToState (A : lanes) : bytes :=
  let '(Lanes Aba Abe Abi Abo Abu Aga Age Agi Ago Agu Aka Ake Aki Ako Aku Ama Ame Ami Amo Amu Asa Ase Asi Aso Asu) := A in
  flat_map (le_bytes 8)
    [Aba; Abe; Abi; Abo; Abu; Aga; Age; Agi; Ago; Agu; Aka; Ake; Aki; Ako; Aku; Ama; Ame; Ami; Amo; Amu; Asa; Ase; Asi; Aso; Asu].

(** KeccakP-1600-opt64.c:341-352 KeccakP1600_Permute_24rounds on the 200-byte state *)
Definition KeccakP1600_Permute_24rounds (st : bytes) : res bytes :=
  let! A := copyFromState st in
  let! A := rounds24 A in
  Ok (copyToState A).
