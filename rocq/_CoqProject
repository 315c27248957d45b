-Q theories Verif
theories/Words.v
theories/WordLemmas.v
theories/HashTableModel.v
theories/ListLemmas.v
theories/HashTableSpec.v
theories/HashTableProofs.v
theories/HashTableOA.v
theories/HashTableOA2.v
theories/HashTableMore.v
theories/HashTableProps.v
theories/Blocks.v
theories/DigestSpec.v
theories/SLP.v
theories/SipModel.v
theories/SipSpec.v
theories/SipProofs.v
theories/SipAsmModel.v
theories/SipAsmProg.v
theories/SipAsmProofs.v
theories/Bij.v
theories/SipBij.v
theories/SipVectors.v
theories/SipProps.v
theories/BlockInj.v
theories/Mm3Model.v
theories/Mm3Spec.v
theories/Mm3Proofs.v
theories/Mm3More.v
theories/Mm3Props.v
theories/CollSpec.v
theories/Mm3Coll.v
theories/Mm3Props2.v
theories/Mem.v
theories/JenkinsModel.v
theories/JenkinsSpec.v
theories/JenkinsProofs.v
theories/JenkinsProofs2.v
theories/JenkinsProofs3.v
theories/JenkinsProofs4.v
theories/JenkinsProofs5.v
theories/JenkinsProofs6.v
theories/JenkinsProps.v
theories/MetroModel.v
theories/MetroSpec.v
theories/MetroProofs.v
theories/MetroMore.v
theories/MetroExact.v
theories/MetroProps.v
theories/WordBij.v
theories/FarmModel.v
theories/FarmVectors.v
theories/FarmSpec.v
theories/FarmProofs.v
theories/FarmProofs2.v
theories/FarmMore.v
theories/FarmProps.v
theories/SpookyModel.v
theories/SpookyVectors.v
theories/SpookySpec.v
theories/SpookyProofs.v
theories/SpookyProofs2.v
theories/SpookyProps.v
theories/ThreefishProg.v
theories/ThreefishModel.v
theories/ThreefishVectors.v
theories/ThreefishSpec.v
theories/ThreefishProofs.v
theories/ThreefishProofs2.v
theories/ThreefishProofs3.v
theories/ThreefishProofs4.v
theories/ThreefishProps.v
theories/KeccakModel.v
theories/KeccakVectors.v
theories/KeccakSpec.v
theories/KeccakHist.v
theories/KeccakProofs.v
theories/KeccakProofs2.v
theories/KeccakProofs3.v
theories/KeccakProofs4.v
theories/KeccakProofs5.v
theories/KeccakProofs6.v
theories/KeccakProps.v
theories/GomapModel.v
theories/GomapSpec.v
theories/GomapProofs.v
theories/GomapProps.v
theories/SmallModel.v
theories/SmallSpec.v
theories/SmallProofs.v
theories/SmallProps.v
theories/HashfModel.v
theories/HashfSpec.v
theories/HashfProofs.v
theories/HashfProps.v
theories/HtModel.v
theories/HtSpec.v
theories/HtProofs.v
theories/HtMore.v
theories/HtKeys.v
theories/HtRuns.v
theories/HtProps.v
theories/HtProps2.v
theories/SmhModel.v
theories/SmhSpec.v
theories/SmhProofs.v
theories/SmhBits.v
theories/SmhKeys.v
theories/SmhKeys2.v
theories/SmhFlip.v
theories/SmhProps.v
theories/SmhProps2.v
theories/F64.v
theories/FloatModel.v
theories/FloatProofs.v
theories/FloatProofs2.v
theories/FloatProps.v
theories/PrintModel.v
theories/PrintProofs.v
theories/PrintProofs2.v
theories/PrintProps.v
theories/CkProg.v
theories/CkModel.v
theories/CkRounds.v
theories/CkSpec.v
theories/CkProofs.v
theories/CkProofs2.v
theories/CkProofs3.v
theories/CkProofs4.v
theories/CkProps.v
theories/CkBitSpec.v
theories/CkBits.v
theories/CkBits2.v
theories/CkProps2.v
theories/CkVectors.v
theories/CkVecModel.v
theories/CkSetProg.v
theories/CkSetRounds.v
theories/CkSetModel.v
theories/CkSetProofs.v
theories/CkSetProofs2.v
theories/CkSetProofs3.v
theories/CkSetProofs4.v
theories/CkSetProps.v
theories/RunModel.v
theories/RunSpec.v
theories/RunProofs.v
theories/RunProofs2.v
theories/RunProofs3.v
theories/RunProofs4.v
theories/RunProofs5.v
theories/RunProps.v
theories/JexModel.v
theories/JexSpec.v
theories/JexProofs.v
theories/JexProofs2.v
theories/JexProps.v
theories/GomapColl.v
theories/GomapProps2.v
theories/QualitySpec.v
theories/QualityProofs.v
theories/QualityProps.v
theories/BirthdayProps.v
theories/Parking.v
theories/Probing.v
theories/ProbingProps.v
theories/TraceModel.v
theories/TraceSpec.v
theories/TraceProofs.v
theories/TraceProofs2.v
theories/TraceProps.v
theories/HallocModel.v
theories/HallocProps.v
theories/UniformSpec.v
theories/UniformProofs.v
theories/UniformProofs2.v
theories/UniformProps.v
theories/LiveModel.v
theories/LiveSpec.v
theories/LiveProofs.v
theories/LiveProofs2.v
theories/LiveProofs3.v
theories/LiveProofs4.v
theories/LiveProofs5.v
theories/LiveProps.v
theories/DigMemModel.v
theories/DigMemSpec.v
theories/DigMemProofs.v
theories/DigMemProofs2.v
theories/DigMemProofs3.v
theories/DigMemProps.v
theories/SpreadSpec.v
theories/SpreadProofs.v
theories/SpreadProps.v
theories/SteerSpec.v
theories/SteerProofs.v
theories/SteerProofs2.v
theories/SteerProps.v
theories/Mm3Small.v
theories/RunLinesData.v
theories/RunLinesProofs.v
theories/RunLinesProofs2.v
theories/RunLinesProofs3.v
theories/RunLinesProps.v
theories/TestMemModel.v
theories/TestMemProofs.v
theories/TestMemProps.v
theories/ConcModel.v
theories/ConcSpec.v
theories/ConcProofs.v
theories/ConcProofs2.v
theories/ConcProofs3.v
theories/ConcProofs4.v
theories/ConcProofs5.v
theories/ConcProofs6.v
theories/ConcProps.v
theories/HtMainModel.v
theories/HtMainSpec.v
theories/HtMainProofs.v
theories/HtMainProofs2.v
theories/HtMainProofs3.v
theories/HtMainProofs4.v
theories/HtMainProps.v
theories/DeclModel.v
theories/DeclSpec.v
theories/DeclProps.v
theories/EndianModel.v
theories/EndianSpec.v
theories/EndianProofs.v
theories/EndianProps.v
theories/FarmNaProps.v
theories/SmhWordModel.v
theories/SmhWordSpec.v
theories/SmhWordProofs.v
theories/SmhWordProofs2.v
theories/SmhWordProps.v
theories/NamesSpec.v
theories/NamesProps.v
