-Q theories Verif
theories/FloatModel.v
theories/FloatProofs.v
theories/DistributeModel.v
theories/DistributeProofs.v
theories/VoxelModel.v
theories/VoxelProofs.v
theories/PropertiesVoxel.v
theories/SortModel.v
theories/SortProofs.v
theories/SortPipelineProofs.v
theories/SortLegacyProofs.v
theories/SortFinal.v
theories/PropertiesSort.v
theories/SweepModel.v
theories/SweepProofs.v
theories/FieldModel.v
theories/FieldProofs.v
theories/FieldSpec.v
theories/FieldSweeps.v
theories/FieldBoundaryModel.v
theories/FieldPhysics.v
theories/FieldPhysics2.v
theories/FieldRms.v
theories/FieldCoefs.v
theories/FieldFinal.v
theories/PropertiesField.v
theories/UtilModel.v
theories/UtilProofs.v
theories/ListProofs.v
theories/PropertiesUtil.v
theories/RngModel.v
theories/RngProofs.v
theories/ConvProofs.v
theories/PermProofs.v
theories/PropertiesRng.v
theories/ParticleModel.v
theories/ParticleSpec.v
theories/ParticleProofs.v
theories/ParticleProofs2.v
theories/ParticleProofs3.v
theories/KernelProofs.v
theories/MoverModel.v
theories/MoverProofs.v
theories/RemoveProofs.v
theories/BoundaryProofs.v
theories/AdvanceProofs.v
theories/PropertiesParticle.v
theories/PropertiesMover.v
theories/GridModel.v
theories/GridProofs.v
theories/PartitionProofs.v
theories/TopologyProofs.v
theories/PropertiesGrid.v
theories/InjectModel.v
theories/InjectProofs.v
theories/PropertiesInject.v
theories/CollisionModel.v
theories/CollisionProofs.v
theories/PropertiesCollision.v
theories/CheckptModel.v
theories/CheckptSpec.v
theories/CheckptProofs.v
theories/CheckptRegistry.v
theories/CheckptFaults.v
theories/PropertiesCheckpt.v
theories/SfModel.v
theories/SfProofs.v
theories/SfCycle.v
theories/PropertiesSf.v
theories/TallyModel.v
theories/PropertiesTally.v
theories/MpModel.v
theories/MpProofs.v
theories/TurnstileProofs.v
theories/PropertiesMp.v
theories/ThreadModel.v
theories/ThreadSpec.v
theories/ThreadProofs.v
theories/ThreadJobs.v
theories/ThreadLive.v
theories/PropertiesThread.v
theories/RemoteModel.v
theories/RemoteSpec.v
theories/RemoteProofs.v
theories/RemoteSync.v
theories/RemoteSum.v
theories/RemoteRun.v
theories/RemoteRunProofs.v
theories/PropertiesRemote.v
theories/RemoteGhost.v
theories/PropertiesGhost.v
theories/DecompSpec.v
theories/DecompProofs.v
theories/DecompSteps.v
theories/PropertiesDecomp.v
theories/LocalModel.v
theories/LocalSpec.v
theories/LocalProofs.v
theories/PropertiesLocal.v
theories/WallSpec.v
theories/WallProofs.v
theories/WallAdjust.v
theories/PropertiesWall.v
theories/AdjustSpec.v
theories/AdjustProofs.v
theories/PropertiesAdjust.v
theories/SfmtSpec.v
theories/SfmtProofs.v
theories/PropertiesSfmt.v
theories/ChargeModel.v
theories/ChargeSpec.v
theories/ChargeProofs.v
theories/ChargeRounds.v
theories/ChargeStep.v
theories/ChargeTables.v
theories/PropertiesCharge.v
theories/CurrentSpec.v
theories/CurrentProofs.v
theories/CurrentCells.v
theories/CurrentSync.v
theories/CurrentTables.v
theories/PropertiesCurrent.v
theories/RhoSpec.v
theories/RhoProofs.v
theories/RhoSteps.v
theories/RhoFinal.v
theories/PropertiesRho.v
theories/HydroModel.v
theories/HydroSpec.v
theories/HydroProofs.v
theories/HydroMoments.v
theories/PropertiesHydro.v
theories/PushProofs.v
theories/PropertiesPush.v
theories/YeeCalculus.v
theories/EnergyModel.v
theories/EnergySpec.v
theories/EnergySums.v
theories/EnergyProofs.v
theories/PropertiesEnergy.v
theories/VecFieldModel.v
theories/VecSweepProofs.v
theories/VecFieldProofs.v
theories/VecFieldFloat.v
theories/PropertiesVec.v
theories/VecModel.v
theories/VecPrograms4.v
theories/VecPrograms8.v
theories/VecPrograms16.v
theories/VecSpec.v
theories/VecProofs.v
theories/VecRows.v
theories/VecMoves.v
theories/PropertiesVecMem.v
theories/VecPartModel.v
theories/VecPartSpec.v
theories/VecPartProofs.v
theories/VecPartSums.v
theories/VecPartFloat.v
theories/PropertiesVecPart.v
theories/RefluxModel.v
theories/RefluxSpec.v
theories/RefluxProofs.v
theories/PropertiesReflux.v
theories/SaveModel.v
theories/SaveSpec.v
theories/SaveProofs.v
theories/SaveFile.v
theories/PropertiesSave.v
theories/DumpModel.v
theories/DumpSpec.v
theories/DumpProofs.v
theories/DumpProofs2.v
theories/PropertiesDump.v
theories/ScheduleModel.v
theories/ScheduleSpec.v
theories/ScheduleProofs.v
theories/ScheduleProofs2.v
theories/PropertiesSchedule.v
theories/VecOpModel.v
theories/VecOpPrograms4.v
theories/VecOpPrograms8.v
theories/VecOpPrograms16.v
theories/VecOpTable.v
theories/VecOpSpec.v
theories/VecOpProofs.v
theories/VecOpWords.v
theories/VecOpLanes.v
theories/VecOpLanes4.v
theories/VecOpLanes8.v
theories/VecOpLanes16.v
theories/VecOpIEEE.v
theories/VecOpReal.v
theories/VecOpProofs2.v
theories/PropertiesVecOp.v
theories/VecReduceModel.v
theories/VecReduceProofs.v
theories/PropertiesVecReduce.v
theories/PoyntingModel.v
theories/PoyntingProofs.v
theories/PropertiesPoynting.v
theories/RegionModel.v
theories/RegionSpec.v
theories/RegionProofs.v
theories/RegionFaces.v
theories/PropertiesRegion.v
theories/HelperModel.v
theories/HelperProofs.v
theories/PropertiesHelper.v
theories/BackModel.v
theories/BackSpec.v
theories/BackProofs.v
theories/PropertiesBack.v
theories/CourantModel.v
theories/CourantSpec.v
theories/CourantProofs.v
theories/PropertiesCourant.v
theories/ModifyModel.v
theories/ModifySpec.v
theories/ModifyProofs.v
theories/PropertiesModify.v
theories/NameModel.v
theories/NameProofs.v
theories/PropertiesName.v
theories/ProfileModel.v
theories/ProfileProofs.v
theories/PropertiesProfile.v
theories/RawModel.v
theories/PropertiesRaw.v
theories/TableModel.v
theories/TableSpec.v
theories/TableProofs.v
theories/PropertiesTable.v
theories/LifeModel.v
theories/PropertiesLife.v
theories/RestartModel.v
theories/PropertiesRestart.v
theories/ElapsedModel.v
theories/PropertiesElapsed.v
