-Q theories Verif
theories/Base.v
theories/Consts.v
theories/FnvModel.v
theories/EntityModel.v
theories/DescrModel.v
theories/ArchModel.v
theories/RegModel.v
theories/SpecBase.v
theories/SpecEntity.v
theories/FnvProofs.v
theories/EntityProofs.v
theories/EntityTable.v
theories/SearchProofs.v
theories/DescrProofs.v
theories/MonadProofs.v
theories/SpecTrace.v
theories/SpecWorld.v
theories/SpecRef.v
theories/ArchProofs.v
theories/ArchOps.v
theories/ArchOps2.v
theories/ArchOps3.v
theories/AregProofs.v
theories/IterProofs.v
theories/RegProofs.v
theories/RegOps.v
theories/RegOps2.v
theories/RegOps3.v
theories/RegIter.v
theories/RegMut.v
theories/RegExact.v
theories/Refine.v
theories/SpecObs.v
theories/Observe.v
theories/Instances.v
theories/Properties_Handles.v
theories/Properties_Descr.v
theories/Properties_Entity.v
theories/Properties_Defects.v
theories/Properties_Registry.v
theories/SpecClient.v
theories/Clients.v
theories/Ref.v
theories/Properties_Clients.v
theories/Profiles.v
theories/Properties_Builds.v
theories/Properties_Ref.v
theories/Overflow.v
theories/Properties_Capacity.v
theories/SpecPorts.v
theories/Endian.v
theories/Properties_Endian.v
theories/Faults.v
theories/Faults2.v
theories/Instances2.v
theories/Properties_Faults.v
theories/SpecCrash.v
theories/Crash.v
theories/Properties_Crash.v
theories/SpecAlloc.v
theories/Alloc.v
theories/Torn.v
theories/Alloc2.v
theories/Alloc3.v
theories/Properties_Alloc.v
theories/Sizes.v
theories/Properties_Sizes.v
theories/ByteModel.v
theories/ByteReg.v
theories/SpecBytes.v
theories/Bytes.v
theories/Bytes2.v
theories/Bytes3.v
theories/Bytes4.v
theories/Bytes5.v
theories/Bytes6.v
theories/Bytes7.v
theories/Bytes8.v
theories/Properties_Bytes.v
theories/SpecEvents.v
theories/Events.v
theories/Events2.v
theories/Events3.v
theories/Properties_Events.v
theories/ArchClient.v
theories/SpecRows.v
theories/Rows.v
theories/Properties_Rows.v
theories/SpecTotal.v
theories/Total.v
theories/Properties_Total.v
theories/SpecUsed.v
theories/Used.v
theories/Collide.v
theories/Properties_Used.v
theories/CodeModel.v
theories/SpecCode.v
theories/Codes.v
theories/Codes2.v
theories/Properties_Codes.v
theories/LazyModel.v
theories/SpecLazy.v
theories/Lazy.v
theories/Lazy2.v
theories/Properties_Lazy.v
theories/AregClient.v
theories/SpecAreg.v
theories/Aregs.v
theories/Properties_Areg.v
theories/SiftModel.v
theories/SpecSift.v
theories/Sift.v
theories/Properties_Sift.v
theories/DeriveModel.v
theories/Derive.v
theories/Properties_Derive.v
theories/EntityClient.v
theories/SpecSlots.v
theories/Slots.v
theories/Properties_Slots.v
theories/SpecBrim.v
theories/Brim.v
theories/Properties_Brim.v
theories/SpecClash.v
theories/Clash.v
theories/Properties_Clash.v
theories/SpecBytes2.v
theories/Bytes9.v
theories/Bytes10.v
theories/Properties_BytesTotal.v
theories/WidthModel.v
theories/SpecWidth.v
theories/Width.v
theories/Width2.v
theories/Width3.v
theories/Width4.v
theories/Properties_Width.v
theories/DescrApiModel.v
theories/SpecDescr.v
theories/DescrApi.v
theories/Properties_DescrApi.v
theories/Tests.v
theories/Bytes11.v
theories/SpecFail.v
theories/Bytes12.v
theories/Bytes13.v
theories/Bytes14.v
theories/Properties_BytesFail.v
theories/ThreadModel.v
theories/SpecThreads.v
theories/Threads.v
theories/Threads2.v
theories/Threads3.v
theories/Properties_Threads.v
theories/MultiModel.v
theories/SpecMulti.v
theories/Multi.v
theories/Multi2.v
theories/Multi3.v
theories/Properties_Multi.v
theories/SpecBomb.v
theories/Bytes15.v
theories/Bytes16.v
theories/Bytes17.v
theories/Properties_BytesBomb.v
theories/SpecMulti2.v
theories/Multi4.v
theories/Properties_Multi2.v
theories/SpecCost.v
theories/Cost.v
theories/Properties_Cost.v
