-Q theories Verif
theories/Py.v
theories/VecModel.v
theories/VecSpec.v
theories/VecProofs.v
theories/FloatRot.v
theories/PropsVec.v
theories/VoxelModel.v
theories/VoxelSpec.v
theories/VoxelProofs.v
theories/PropsVoxel.v
theories/CodecModel.v
theories/CodecSpec.v
theories/CodecFloat.v
theories/CodecParse.v
theories/CodecProofs.v
theories/CodecRead.v
theories/CodecMap.v
theories/OutModel.v
theories/OutSpec.v
theories/OutProofs.v
theories/CodecSamples.v
theories/PropsCodec.v
theories/UpmModel.v
theories/UpmSpec.v
theories/UpmProofs.v
theories/UpmRandom.v
theories/UpmTrace.v
theories/UpmInv.v
theories/RoomClasses.v
theories/UpmMore.v
theories/UpmMore2.v
theories/UpmBridge.v
theories/UpmSamples.v
theories/UpmFinal.v
theories/PropsUpm.v
theories/KitModel.v
theories/KitSpec.v
theories/KitProofs.v
theories/KitShape.v
theories/KitPaint.v
theories/KitTile.v
theories/PropsKit.v
theories/RoomModel.v
theories/MagicaModel.v
theories/RoomSpec.v
theories/RoomProofs.v
theories/RoomCheck.v
theories/MagicaProofs.v
theories/RoomDoors.v
theories/PropsRoom.v
theories/EffectModel.v
theories/EffectSpec.v
theories/EffectProofs.v
theories/EffectRooms.v
theories/PropsEffect.v
theories/TexModel.v
theories/TexSpec.v
theories/TexProofs.v
theories/PropsTex.v
theories/VoxFileModel.v
theories/VoxFileSpec.v
theories/VoxFileProofs.v
theories/PropsVoxFile.v
theories/DistModel.v
theories/DistSpec.v
theories/DistProofs.v
theories/PropsDist.v
theories/FaceModel.v
theories/FaceSpec.v
theories/FaceProofs.v
theories/PropsFace.v
theories/LightModel.v
theories/LightSpec.v
theories/LightProofs.v
theories/PropsLight.v
theories/JsonModel.v
theories/JsonSpec.v
theories/JsonProofs.v
theories/JsonText.v
theories/JsonSamples.v
theories/PropsJson.v
theories/ShippedVox.v
theories/ShippedModel.v
theories/ShippedSpec.v
theories/ShippedCheck.v
theories/ShippedProofs.v
theories/ShippedDraw.v
theories/PropsShipped.v
theories/GenModel.v
theories/GenSpec.v
theories/GenLayout.v
theories/GenDraw.v
theories/GenProofs.v
theories/PropsGen.v
theories/FairSpec.v
theories/FairProofs.v
theories/PropsFair.v
theories/ConfModel.v
theories/ConfSpec.v
theories/ConfProofs.v
theories/PropsConf.v
theories/TerrainModel.v
theories/TerrainSpec.v
theories/TerrainProofs.v
theories/PropsTerrain.v
theories/RoomEntModel.v
theories/RoomEntSpec.v
theories/RoomEntProofs.v
theories/PropsRoomEnt.v
theories/DebugModel.v
theories/DebugSpec.v
theories/DebugProofs.v
theories/PropsDebug.v
theories/PassSpec.v
theories/PassCheck.v
theories/PassProofs.v
theories/PassGen.v
theories/PropsPass.v
theories/StandSpec.v
theories/StandProofs.v
theories/StandGen.v
theories/PropsStand.v
theories/HueModel.v
theories/HueSpec.v
theories/HueProofs.v
theories/PropsHue.v
theories/CopyModel.v
theories/CopySpec.v
theories/CopyProofs.v
theories/PropsCopy.v
theories/ExportSpec.v
theories/ExportProofs.v
theories/PropsExport.v
theories/InfoModel.v
theories/InfoSpec.v
theories/InfoProofs.v
theories/PropsInfo.v
theories/FootSpec.v
theories/FootCheck.v
theories/FootProofs.v
theories/FootRooms.v
theories/FootGen.v
theories/PropsFoot.v
theories/LineModel.v
theories/LineSpec.v
theories/LineProofs.v
theories/PropsLine.v
theories/ShippedMaps.v
theories/BaseSpec.v
theories/BaseProofs.v
theories/BaseGen.v
theories/PropsBase.v
theories/GenBox.v
theories/PropsBox.v
theories/VoidSpec.v
theories/VoidProofs.v
theories/PropsVoid.v
theories/RoomTestModel.v
theories/RoomTestSpec.v
theories/RoomTestProofs.v
theories/PropsRoomTest.v
theories/ReModel.v
theories/ReSpec.v
theories/ReProofs.v
theories/PropsRe.v
theories/ApartSpec.v
theories/ApartProofs.v
theories/PropsApart.v
theories/SkyModel.v
theories/SkySpec.v
theories/SkyProofs.v
theories/PropsSky.v
theories/RainbowModel.v
theories/RainbowSpec.v
theories/RainbowProofs.v
theories/PropsRainbow.v
theories/DiscModel.v
theories/DiscSpec.v
theories/DiscWriter.v
theories/DiscLoss.v
theories/DiscProofs.v
theories/PropsDisc.v
theories/TerrainDiscModel.v
theories/TerrainDiscProofs.v
theories/PropsTerrainDisc.v
theories/DebugDiscProofs.v
theories/PropsDebugDisc.v
theories/DebugExportSpec.v
theories/DebugExportProofs.v
theories/PropsDebugExport.v
theories/SeqModel.v
theories/SeqProofs.v
theories/PropsSeq.v
theories/TextModel.v
theories/TextProofs.v
theories/PropsText.v
theories/BaseRunProofs.v
theories/PropsBaseRun.v
theories/OutputsModel.v
theories/OutputsProofs.v
theories/PropsOutputs.v
theories/HueExactProofs.v
theories/HueRoundProofs.v
theories/PropsHueExact.v
theories/LitProofs.v
theories/PropsLit.v
