-Q theories Verif
theories/Model/Base.v
theories/Model/Params.v
theories/Model/Fields.v
theories/Model/Limbs.v
theories/Model/Aes.v
theories/Model/Owf.v
theories/Model/Keccak.v
theories/Model/Sponge.v
theories/Model/Sponge4.v
theories/Model/Hash.v
theories/Model/Vc.v
theories/Model/Vole.v
theories/Model/UHash.v
theories/Model/FaestAes.v
theories/Model/Faest.v
theories/Model/Api.v
theories/Proof/BaseProof.v
theories/Spec/Poly.v
theories/Proof/PolyProof.v
theories/Proof/FieldProof.v
theories/Proof/EmbedProof.v
theories/Spec/FieldSpec.v
theories/Proof/FieldProps.v
theories/Props/C18.v
theories/Props/C19.v
theories/Props/C20.v
theories/Props/C21.v
theories/Spec/WordSpec.v
theories/Proof/WordProof.v
theories/Props/C44.v
theories/Props/C45.v
theories/Spec/AesSpec.v
theories/Spec/OwfSpec.v
theories/Spec/VcSpec.v
theories/Proof/AesProof.v
theories/Proof/PrgProof.v
theories/Proof/AesProps.v
theories/Proof/ParamProps.v
theories/Props/C22.v
theories/Props/C23.v
theories/Props/C24.v
theories/Props/C25.v
theories/Props/C31.v
theories/Props/C32.v
theories/Props/C34.v
theories/Props/C35.v
theories/Props/C36.v
theories/Proof/VcProof.v
theories/Proof/VcProps.v
theories/Props/C12.v
theories/Props/C13.v
theories/Props/C16.v
theories/Props/C17.v
theories/Props/C39.v
theories/Props/C40.v
theories/Spec/FormatSpec.v
theories/Spec/FormatMap.v
theories/Spec/VoleSpec.v
theories/Spec/VoleMap.v
theories/Proof/FormatProof.v
theories/Proof/VoleProof.v
theories/Proof/VoleProps.v
theories/Proof/CorrectProof.v
theories/Props/C06.v
theories/Props/C07.v
theories/Props/C09.v
theories/Props/C14.v
theories/Props/C15.v
theories/Spec/UHashSpec.v
theories/Spec/UHashMap.v
theories/Proof/UHashProof.v
theories/Proof/UHashProps.v
theories/Props/C26.v
theories/Props/C27.v
theories/Spec/ConstraintSpec.v
theories/Spec/ConstraintMap.v
theories/Proof/ClaimProof.v
theories/Proof/WitnessProof.v
theories/Proof/DefectProof.v
theories/Proof/WitnessProps.v
theories/Proof/WireProof.v
theories/Proof/ConsProof.v
theories/Proof/KeyWireProof.v
theories/Proof/KeyBackProof.v
theories/Proof/ConstrProof.v
theories/Props/C28.v
theories/Props/C29.v
theories/Proof/FactorProof.v
theories/Spec/ProofSpec.v
theories/Spec/RunSpec.v
theories/Spec/SignSpec.v
theories/Spec/KeySpec.v
theories/Proof/RowsProof.v
theories/Proof/ProveProof.v
theories/Proof/AgreeProof.v
theories/Proof/AgreeProps.v
theories/Proof/VerifyProof.v
theories/Proof/VerifyProps.v
theories/Proof/OracleProps.v
theories/Proof/SignProof.v
theories/Proof/HonestProof.v
theories/Proof/ApiProof.v
theories/Proof/ApiProps.v
theories/Proof/KeyCases.v
theories/Props/C30.v
theories/Props/C38.v
theories/Props/C01.v
theories/Props/C02.v
theories/Props/C03.v
theories/Props/C04.v
theories/Props/C05.v
theories/Props/C08.v
theories/Props/C10.v
theories/Props/C11.v
theories/Props/C37.v
theories/Props/C43.v
theories/Spec/KeccakSpec.v
theories/Proof/KeccakProof.v
theories/Proof/SpongeProof.v
theories/Proof/ShakeProof.v
theories/Proof/ShakeRun.v
theories/Proof/Sponge4Proof.v
theories/Proof/Sponge4Shake.v
theories/Proof/LengthProps.v
theories/Props/C33.v
theories/Props/C41.v
theories/Props/C42.v
theories/Model/Random.v
theories/Model/Compat.v
theories/Spec/RandomSpec.v
theories/Proof/RandomProof.v
theories/Proof/CompatProof.v
theories/Proof/AllocProof.v
theories/Props/C46.v
theories/Props/C47.v
theories/Spec/SoundSpec.v
theories/Spec/CountSpec.v
theories/Proof/SoundProof.v
theories/Proof/SoundProps.v
theories/Proof/RootProof.v
theories/Proof/CountProof.v
theories/Proof/CountProps.v
theories/Props/C48.v
theories/Props/C49.v
theories/Spec/ViewSpec.v
theories/Proof/ViewProof.v
theories/Proof/ViewProps.v
theories/Props/C50.v
theories/Model/Snp.v
theories/Model/Keccak32.v
theories/Model/SpongeOn.v
theories/Spec/StateSpec.v
theories/Proof/InterProof.v
theories/Proof/SnpProof.v
theories/Proof/SnpImpl.v
theories/Proof/SpongeOnProof.v
theories/Proof/StateProof.v
theories/Props/C51.v
theories/Model/CtLang.v
theories/Model/CtNames.v
theories/Model/CtFields.v
theories/Model/CtAes.v
theories/Model/CtKeccakP.v
theories/Model/CtKeccak.v
theories/Model/CtZkHash.v
theories/Model/CtVole.v
theories/Model/CtProve.v
theories/Model/CtFaest.v
theories/Model/CtApi.v
theories/Model/CtProgram.v
theories/Spec/CtSpec.v
theories/Proof/CtCheck.v
theories/Proof/CtSound.v
theories/Proof/CtEntries.v
theories/Proof/CtTable.v
theories/Proof/CtQuiet.v
theories/Proof/CtCase.v
theories/Props/C52.v
theories/Spec/FpSpec.v
theories/Proof/FpCheck.v
theories/Proof/FpEntries.v
theories/Proof/FpTable.v
theories/Proof/FpCase.v
theories/Props/C53.v
theories/Proof/RefLogic.v
theories/Proof/RefTac.v
theories/Proof/RefMem.v
theories/Proof/RefBytes.v
theories/Proof/RefAes.v
theories/Proof/RefCipher.v
theories/Proof/RefKeys.v
theories/Proof/RefOwf.v
theories/Spec/RefSpec.v
theories/Proof/RefApi.v
theories/Proof/RefProps.v
theories/Props/C54.v
theories/Proof/RefSe.v
theories/Proof/RefSx.v
theories/Proof/RefWord.v
theories/Proof/RefFields.v
theories/Proof/RefWin.v
theories/Proof/RefUHash.v
theories/Proof/RefFlat.v
theories/Proof/RefElem.v
theories/Proof/RefVoleHash.v
theories/Proof/RefZkHash.v
theories/Spec/RefHashSpec.v
theories/Proof/RefHashProps.v
theories/Props/C55.v
theories/Proof/RefPrg.v
theories/Proof/RefPrgProps.v
theories/Props/C56.v
theories/Props/C57.v
theories/Props/C58.v
theories/Props/C59.v
theories/Props/C60.v
theories/Props/C61.v
theories/Props/C62.v
theories/Props/C63.v
theories/Props/C64.v
theories/Props/C65.v
theories/Props/C66.v
theories/Proof/RefReg.v
theories/Proof/RefKeccak.v
theories/Proof/RefFast.v
theories/Proof/RefSnp.v
theories/Proof/RefSponge.v
theories/Proof/RefSponge4.v
theories/Proof/RefHash.v
theories/Proof/RefHash4.v
theories/Proof/RefFresh.v
theories/Proof/RefTree.v
theories/Proof/RefTree2.v
theories/Proof/RefLeaf.v
theories/Proof/RefVc.v
theories/Proof/RefOpen.v
theories/Proof/RefRec.v
theories/Proof/RefRec2.v
theories/Proof/RefRec3.v
theories/Proof/RefVcProps.v
theories/Proof/RefRecProps.v
theories/Proof/RefConv.v
theories/Proof/RefVoleCommit.v
theories/Proof/RefChal.v
theories/Spec/RefVoleSpec.v
theories/Spec/RefVoleRecSpec.v
theories/Proof/RefConvProps.v
theories/Proof/RefCommitProps.v
theories/Proof/RefVoleRec.v
theories/Proof/RefVoleRecProps.v
theories/Spec/RefTranscriptSpec.v
theories/Proof/RefTranscript.v
theories/Spec/RefPartsSpec.v
theories/Proof/RefParts.v
theories/Spec/RefParamSpec.v
theories/Proof/RefParam.v
theories/Spec/RefRefuseSpec.v
theories/Proof/RefRefuse.v
theories/Spec/RefShakeSpec.v
theories/Spec/RefVcSpec.v
theories/Spec/RefRecSpec.v
theories/Proof/RefShakeProps.v
theories/Proof/RefShakeProps4.v
