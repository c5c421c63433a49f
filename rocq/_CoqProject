-Q theories Verif
theories/Machine.v
theories/CacheModel.v
theories/CacheSpec.v
theories/CacheProofs.v
theories/PropertiesCache.v
theories/Loops.v
theories/BBoxModel.v
theories/BBoxSpec.v
theories/BBoxProofs.v
theories/PropertiesBBox.v
theories/FloatModel.v
theories/PixelModel.v
theories/PixelSpec.v
theories/PixelProofs.v
theories/PixelProofs2.v
theories/PixelConvProofs.v
theories/PropertiesPixel.v
theories/MergeModel.v
theories/MergeSpec.v
theories/MergeProofs.v
theories/PropertiesMerge.v
theories/PathModel.v
theories/PathSpec.v
theories/PathProofs.v
theories/EnumModel.v
theories/EnumSpec.v
theories/EnumProofs.v
theories/ConfigModel.v
theories/ConfigProofs.v
theories/PropertiesPath.v
theories/GraphModel.v
theories/GraphSpec.v
theories/GraphWalk.v
theories/GraphExec.v
theories/GraphMeaning.v
theories/GraphHistory.v
theories/GraphHistory2.v
theories/GraphCount.v
theories/GraphLadder.v
theories/GraphFacts.v
theories/GraphPlay.v
theories/PropertiesGraph.v
theories/AttrModel.v
theories/HashModel.v
theories/HashSpec.v
theories/HashProofs.v
theories/StreamModel.v
theories/GradeModel.v
theories/DeformModel.v
theories/BakeModel.v
theories/PropertiesHash.v
theories/NodeModel.v
theories/NodeExamples.v
theories/AttrSpec.v
theories/AttrProofs.v
theories/PropertiesAttr.v
theories/NodeSpec.v
theories/NodeProofs.v
theories/NodePair.v
theories/NodeProofs2.v
theories/FloatFacts.v
theories/NodeProofs3.v
theories/ViewSpec.v
theories/ViewProofs.v
theories/PropertiesNode.v
theories/BakeSpec.v
theories/BakeProofs.v
theories/TransformProofs.v
theories/PropertiesBake.v
theories/GeomModel.v
theories/GeomSpec.v
theories/GeomProofs.v
theories/GeomProofs2.v
theories/FloatReal.v
theories/GeomReal.v
theories/PropertiesGeom.v
theories/LutModel.v
theories/LutSpec.v
theories/LutProofs.v
theories/CacheEntries.v
theories/LutHistory.v
theories/LutProofs2.v
theories/LutProofs3.v
theories/PropertiesLut.v
theories/GraphSim.v
theories/SoundSpec.v
theories/SoundProofs1.v
theories/SoundProofs2.v
theories/SoundProofs3.v
theories/PropertiesSound.v
theories/RunSpec.v
theories/RunProofs.v
theories/ChainSpec.v
theories/ChainProofs.v
theories/RenderProofs.v
theories/PropertiesRun.v
theories/RemapSpec.v
theories/RemapProofs.v
theories/RemapReal.v
theories/RemapKeep.v
theories/PropertiesDeform.v
theories/IsoSpec.v
theories/IsoProofs.v
theories/IsoFacts.v
theories/PropertiesIso.v
theories/GraphSafe.v
theories/SafeSpec.v
theories/SafeProofs.v
theories/SafeFacts.v
theories/PropertiesSafe.v
theories/ShowSpec.v
theories/ShowProofs.v
theories/PropertiesShow.v
theories/PeelSpec.v
theories/PeelProofs.v
theories/PassSpec.v
theories/PassProofs.v
theories/PropertiesPeel.v
theories/FxModel.v
theories/FxProofs.v
theories/PropertiesId.v
theories/ObjModel.v
theories/ObjSpec.v
theories/ObjProofs.v
theories/PropertiesObj.v
theories/LawSpec.v
theories/LawProofs.v
theories/PropertiesLaw.v
theories/NewSpec.v
theories/NewProofs.v
theories/PropertiesNew.v
theories/ClampProofs.v
theories/PropertiesClamp.v
theories/UndoReal.v
theories/UndoSpec.v
theories/UndoProofs.v
theories/PropertiesUndo.v
theories/FileModel.v
theories/FileSpec.v
theories/FileProofs.v
theories/PropertiesFile.v
theories/SpaceSpec.v
theories/SpaceProofs.v
theories/PropertiesSpace.v
theories/ConfigReal.v
theories/LookupModel.v
theories/LookupSpec.v
theories/LookupProofs.v
theories/PropertiesLookup.v
theories/LensModel.v
theories/LensSpec.v
theories/LensProofs.v
theories/PropertiesLens.v
theories/LineReal.v
theories/LineSpec.v
theories/LineProofs.v
theories/PropertiesLine.v
theories/PowerReal.v
theories/PowerSpec.v
theories/PowerProofs.v
theories/UndoPower.v
theories/PropertiesPower.v
theories/ThreadModel.v
theories/ThreadSpec.v
theories/ThreadProofs.v
theories/PropertiesThread.v
theories/MixSpec.v
theories/MixReal.v
theories/MixProofs.v
theories/PropertiesMix.v
theories/FrameModel.v
theories/FrameSpec.v
theories/FrameProofs.v
theories/PropertiesFrame.v
theories/MoveReal.v
theories/MoveSpec.v
theories/MoveProofs.v
theories/PropertiesMove.v
theories/OpModel.v
theories/OpSpec.v
theories/OpProofs.v
theories/PropertiesOp.v
theories/MetaSpec.v
theories/MetaProofs.v
theories/PropertiesMeta.v
theories/TextSpec.v
theories/PropertiesText.v
theories/DefaultProofs.v
theories/DamageSpec.v
theories/DamageProofs.v
theories/PropertiesDamage.v
theories/BitsProofs.v
theories/BarSpec.v
theories/BarProofs.v
theories/StateSpec.v
theories/StateProofs.v
theories/PropertiesBar.v
theories/EdgeSpec.v
theories/EdgeProofs.v
theories/BackSpec.v
theories/BackProofs.v
theories/PropertiesBack.v
theories/CrateModel.v
theories/CrateSpec.v
theories/CrateProofs.v
theories/CrateReal.v
theories/PropertiesCrate.v
theories/CoverSpec.v
theories/CoverProofs.v
theories/PropertiesCover.v
theories/TripSpec.v
theories/TripProofs.v
theories/PropertiesTrip.v
theories/BrownSpec.v
theories/BrownProofs.v
theories/PropertiesBrown.v
theories/TintModel.v
theories/TintSpec.v
theories/TintProofs.v
theories/PropertiesTint.v
theories/LevelSpec.v
theories/LevelProofs.v
theories/PropertiesLevel.v
theories/BuildSpec.v
theories/BuildProofs.v
theories/PropertiesBuild.v
theories/RowModel.v
theories/RowSpec.v
theories/RowProofs.v
theories/PropertiesRow.v
theories/KeepSpec.v
theories/KeepProofs.v
theories/PropertiesKeep.v
theories/PlugSpec.v
theories/PlugProofs.v
theories/PropertiesPlug.v
theories/AgainSpec.v
theories/AgainProofs.v
theories/AgainProofs2.v
theories/AgainProofs3.v
theories/PropertiesAgain.v
theories/PartSpec.v
theories/PartProofs.v
theories/PropertiesPart.v
theories/AloneSpec.v
theories/GraphAlone.v
theories/UncachedSpec.v
theories/UncachedProofs.v
theories/ShowCacheProofs.v
theories/PropertiesShow2.v
theories/RunCacheProofs.v
theories/PropertiesRun2.v
theories/SceneRun.v
theories/SceneSpec.v
theories/SceneProofs.v
theories/SceneProofs2.v
theories/PropertiesScene.v
theories/AlikeSpec.v
theories/AlikeProofs.v
theories/PropertiesAlike.v
theories/WriteSpec.v
theories/SceneWrite.v
theories/PropertiesWrite.v
theories/EachSpec.v
theories/EachRun.v
theories/EachProofs.v
theories/PropertiesEach.v
theories/FinishSpec.v
theories/FinishProofs.v
theories/FinishScene.v
theories/PropertiesFinish.v
theories/FreshRun.v
theories/FreshSpec.v
theories/FreshProofs.v
theories/PropertiesFresh.v
theories/TotalSpec.v
theories/TotalProofs.v
theories/PropertiesTotal.v
theories/EditSpec.v
theories/EditProofs.v
theories/EditProofs2.v
theories/PropertiesEdit.v
theories/ReportModel.v
theories/ReportReal.v
theories/PropertiesReport.v
theories/ClientModel.v
theories/ClientSpec.v
theories/ClientProofs.v
theories/PropertiesClient.v
theories/ClientSpec2.v
theories/ClientProofs2.v
theories/PropertiesClient2.v
theories/RepoTests.v
theories/ClientSpec3.v
theories/ClientProofs3.v
theories/PropertiesClient3.v
theories/ClientSpec4.v
theories/ClientProofs4.v
theories/PropertiesClient4.v
theories/ProgramSpec.v
theories/ProgramProofs.v
theories/ProgramProofs2.v
theories/PropertiesProgram.v
theories/ProgramSpec2.v
theories/ProgramProofs3.v
theories/PropertiesProgram2.v
theories/ProgramSpec3.v
theories/ProgramProofs4.v
theories/PropertiesProgram3.v
theories/ProgramSpec4.v
theories/ProgramProofs5.v
theories/PropertiesProgram4.v
theories/ListingModel.v
theories/ListingSpec.v
theories/ListingProofs.v
theories/PropertiesListing.v
theories/FarmSpec.v
theories/FarmProofs.v
theories/PropertiesFarm.v
theories/NameModel.v
theories/NameSpec.v
theories/NameProofs.v
theories/PropertiesName.v
theories/ShareModel.v
theories/ShareSpec.v
theories/ShareProofs.v
theories/PropertiesShare.v
theories/FinishSpec2.v
theories/FinishProofs2.v
theories/PropertiesFinish2.v
theories/PropertiesFarm2.v
theories/DevelopSpec.v
theories/DevelopProofs.v
theories/PropertiesDevelop.v
theories/DevelopSpec2.v
theories/DevelopProofs2.v
theories/PropertiesDevelop2.v
theories/MovedSpec.v
theories/MovedProofs.v
theories/PropertiesMoved.v
theories/LayerSpec.v
theories/LayerProofs.v
theories/PropertiesLayer.v
theories/LayerSpec2.v
theories/LayerProofs2.v
theories/PropertiesLayer2.v
