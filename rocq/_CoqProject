-Q theories Verif
theories/Base.v
theories/Bits.v
theories/Bitboard.v
theories/Attack.v
theories/Geo.v
theories/GeoProofs.v
theories/BitboardProofs.v
theories/AttackProofs.v
theories/Types.v
theories/HandProofs.v
theories/Position.v
theories/StepProofs.v
theories/Views.v
theories/AttackersProofs.v
theories/DoMoveProofs.v
theories/UndoProofs.v
theories/KeyProofs.v
theories/LineProofs.v
theories/CheckProofs.v
theories/CheckersProofs.v
theories/Spec.v
theories/Abs.v
theories/Bridge.v
theories/Rules.v
theories/PlayProofs.v
theories/Board.v
theories/SetProofs.v
theories/SpecProofs.v
theories/HistProofs.v
theories/BitsProofs.v
theories/Claims.v
theories/ClaimProofs.v
theories/Book.v
theories/BookProofs.v
theories/Decide.v
theories/ViewsOut.v
theories/PseudoN.v
theories/SafeN.v
theories/Gen.v
theories/Examples.v
theories/HandFinal.v
theories/SafeKing.v
theories/EnumN.v
theories/GenN.v
theories/GenPawn.v
theories/GenDrop.v
theories/GenLegal.v
theories/GenExact.v
theories/PawnMate.v
theories/ClaimsGen.v
theories/GenFinal.v
theories/IsLegal.v
theories/AttackFinal.v
theories/BoardFinal.v
theories/GenClaims.v
theories/GenExamples.v
theories/MoveText.v
theories/TextSpec.v
theories/TextProofs.v
theories/MoveCodes.v
theories/Turn.v
theories/Labels.v
theories/MoveExamples.v
theories/Fresh.v
theories/Packed.v
theories/PackedProofs.v
theories/PackEnc.v
theories/PackDec.v
theories/PackClaims.v
theories/PackFinal.v
theories/PackExamples.v
theories/Sfen.v
theories/SfenSpec.v
theories/SfenProofs.v
theories/SfenFinal.v
theories/SfenInput.v
theories/SfenExamples.v
theories/Draw.v
theories/DrawSpec.v
theories/DrawProofs.v
theories/DrawFinal.v
theories/Features.v
theories/FeaturesSpec.v
theories/FeaturesProofs.v
theories/PlaneProofs.v
theories/Features1.v
theories/Features2.v
theories/FeatureExamples.v
theories/Command.v
theories/CommandSpec.v
theories/CommandProofs.v
theories/CommandFinal.v
theories/CommandExamples.v
theories/Rotate.v
theories/RotateProofs.v
theories/RotateFinal.v
theories/Csa.v
theories/CsaSpec.v
theories/CsaBlock.v
theories/CsaGame.v
theories/CsaRecord.v
theories/CsaFinal.v
theories/CsaExamples.v
theories/Heap.v
theories/HeapSpec.v
theories/HeapProofs.v
theories/Prop_Attacks.v
theories/Prop_Bits.v
theories/Prop_Board.v
theories/Prop_Gen.v
theories/PseudoList.v
theories/PseudoListProofs.v
theories/Prop_Pseudo.v
theories/Export.v
theories/ExportSpec.v
theories/ExportProofs.v
theories/ExportExamples.v
theories/Prop_Export.v
theories/Prop_Moves.v
theories/Prop_Packed.v
theories/Prop_Sfen.v
theories/Prop_Draw.v
theories/Prop_Features.v
theories/Prop_Command.v
theories/Prop_Rotate.v
theories/Prop_Csa.v
theories/Ok.v
theories/OkSpec.v
theories/OkProofs.v
theories/OkExamples.v
theories/Prop_Copy.v
theories/PackSpec.v
theories/PackFormat.v
theories/Prop_Ok.v
theories/Prop_Format.v
theories/Mate1.v
theories/MateSpec.v
theories/Mate1Core.v
theories/Mate1Lift.v
theories/Mate1Moves.v
theories/Mate1Basic.v
theories/Mate1Double.v
theories/Mate1Line.v
theories/Mate1Far.v
theories/Mate1FarEnd.v
theories/Mate1Discover.v
theories/Mate1Final.v
theories/CheckGen.v
theories/CheckGenProofs.v
theories/CheckGenFinal.v
theories/Mate.v
theories/MateSearchSpec.v
theories/MateMoves.v
theories/MateProofs.v
theories/MateFinal.v
theories/MateHeld.v
theories/Prop_Mate.v
theories/Prop_MateSearch.v
theories/Ki2.v
theories/Ki2Spec.v
theories/Ki2Text.v
theories/Ki2Proofs.v
theories/Ki2Final.v
theories/Ki2Examples.v
theories/Prop_Ki2.v
theories/Pgn.v
theories/PgnSpec.v
theories/PgnProofs.v
theories/PgnFinal.v
theories/PgnExamples.v
theories/Prop_Pgn.v
theories/Kif.v
theories/KifSpec.v
theories/KifText.v
theories/KifProofs.v
theories/KifFinal.v
theories/KifExamples.v
theories/Prop_Kif.v
theories/Ki2Game.v
theories/Ki2GameSpec.v
theories/Ki2GameProofs.v
theories/Ki2GameExamples.v
theories/Prop_Ki2Game.v
theories/Engine.v
theories/EngineSpec.v
theories/EngineProofs.v
theories/EngineFinal.v
theories/EngineExamples.v
theories/Prop_Engine.v
theories/Match.v
theories/MatchSpec.v
theories/MatchProofs.v
theories/MatchExamples.v
theories/Prop_Match.v
theories/Talk.v
theories/TalkSpec.v
theories/TalkProofs.v
theories/Prop_Talk.v
theories/Multi.v
theories/MultiSpec.v
theories/MultiProofs.v
theories/Prop_Multi.v
theories/Env.v
theories/EnvSpec.v
theories/EnvProofs.v
theories/Prop_Env.v
