-Q theories Verif
theories/Base.v
theories/Varint.v
theories/VarintSpec.v
theories/VarintProofs.v
theories/Base64.v
theories/Base64Spec.v
theories/Base64Proofs.v
theories/Crc16.v
theories/Crc16Spec.v
theories/Crc16Step.v
theories/Crc16Proofs.v
theories/Props_Codec.v
theories/CircularBuffer.v
theories/CircularBufferSpec.v
theories/CircularBufferProofs.v
theories/Props_CircularBuffer.v
theories/Rle.v
theories/RleSpec.v
theories/RleProofs.v
theories/Props_Rle.v
theories/Cbor.v
theories/CborSpec.v
theories/CborDoc.v
theories/CborProofs.v
theories/Props_Cbor.v
theories/ChunkTransport.v
theories/ChunkSpec.v
theories/ChunkProofs.v
theories/Props_Chunk.v
theories/ChunkDrain.v
theories/Packetizer.v
theories/PacketizerSpec.v
theories/PacketizerProofs.v
theories/Props_Packetizer.v
theories/DataSourceRle.v
theories/DataSourceRleSpec.v
theories/DataSourceRleProofs.v
theories/Props_DataSourceRle.v
theories/EventStorage.v
theories/EventStorageSpec.v
theories/EventStorageProofs.v
theories/Props_EventStorage.v
theories/LogSpec.v
theories/Log.v
theories/LogLists.v
theories/LogProofs.v
theories/LogHistoryProofs.v
theories/Props_Log.v
theories/SerializerHelper.v
theories/SerializerHelperSpec.v
theories/SerializerHelperProofs.v
theories/SerializerDocs.v
theories/Props_SerializerHelper.v
theories/HttpUtils.v
theories/HttpUtilsSpec.v
theories/HttpUtilsProofs.v
theories/HttpUriProofs.v
theories/HttpResponseProofs.v
theories/HttpRequest.v
theories/HttpRequestSpec.v
theories/HttpRequestProofs.v
theories/Props_Http.v
theories/Watchdog.v
theories/WatchdogSpec.v
theories/WatchdogProofs.v
theories/Props_Watchdog.v
theories/Reboot.v
theories/RebootSpec.v
theories/RebootProofs.v
theories/Props_Reboot.v
theories/HeapStats.v
theories/HeapStatsSpec.v
theories/HeapStatsProofs.v
theories/Props_HeapStats.v
theories/CompactLog.v
theories/CompactLogSpec.v
theories/CompactLogProofs.v
theories/Props_CompactLog.v
theories/TraceEvent.v
theories/TraceEventSpec.v
theories/TraceEventProofs.v
theories/Props_TraceEvent.v
theories/DataExport.v
theories/DataExportSpec.v
theories/DataExportProofs.v
theories/Props_DataExport.v
theories/Cdr.v
theories/CdrSpec.v
theories/CdrProofs.v
theories/Props_Cdr.v
theories/LogDataSource.v
theories/LogDataSourceSpec.v
theories/LogDataSourceProofs.v
theories/Props_LogDataSource.v
theories/Coredump.v
theories/CoredumpSpec.v
theories/CoredumpProofs.v
theories/CoredumpSaveProofs.v
theories/Props_Coredump.v
theories/Metrics.v
theories/MetricsSpec.v
theories/MetricsProofs.v
theories/Props_Metrics.v
theories/MetricsSerializer.v
theories/MetricsSerializerSpec.v
theories/MetricsSerializerProofs.v
theories/Props_MetricsSerializer.v
theories/MetricsBuiltin.v
theories/MetricsBuiltinSpec.v
theories/MetricsBuiltinProofs.v
theories/Props_MetricsBuiltin.v
theories/BufferedStorage.v
theories/BufferedStorageSpec.v
theories/BufferedStorageProofs.v
theories/Props_BufferedStorage.v
theories/StorageTest.v
theories/StorageTestSpec.v
theories/StorageTestProofs.v
theories/Props_StorageTest.v
theories/DemoShell.v
theories/DemoShellSpec.v
theories/DemoShellProofs.v
theories/Props_DemoShell.v
theories/BuildId.v
theories/BuildIdSpec.v
theories/BuildIdProofs.v
theories/Props_BuildId.v
theories/LogExport.v
theories/LogExportSpec.v
theories/LogExportProofs.v
theories/Props_LogExport.v
theories/MetricsBoot.v
theories/MetricsBootSpec.v
theories/MetricsBootProofs.v
theories/Props_MetricsBoot.v
theories/EventNv.v
theories/EventNvSpec.v
theories/EventNvProofs.v
theories/Props_EventNv.v
theories/Uplink.v
theories/UplinkSpec.v
theories/UplinkProofs.v
theories/Props_Uplink.v
theories/Device.v
theories/DeviceSpec.v
theories/DeviceProofs.v
theories/Props_Device.v
theories/TaskRegions.v
theories/TaskRegionsSpec.v
theories/TaskRegionsProofs.v
theories/Props_TaskRegions.v
theories/StoragePorts.v
theories/StoragePortsSpec.v
theories/StoragePortsProofs.v
theories/StoragePortsKeep.v
theories/Props_StoragePorts.v
theories/FaultShim.v
theories/FaultShimSpec.v
theories/FaultShimProofs.v
theories/FaultHandling.v
theories/FaultHandlingSpec.v
theories/FaultHandlingProofs.v
theories/ArchRegions.v
theories/ArchRegionsSpec.v
theories/ArchRegionsProofs.v
theories/Props_Fault.v
theories/Props_ArchRegions.v
theories/PortMetrics.v
theories/PortMetricsSpec.v
theories/PortMetricsProofs.v
theories/PortNet.v
theories/PortNetSpec.v
theories/PortNetProofs.v
theories/PortClock.v
theories/PortClockSpec.v
theories/PortClockProofs.v
theories/Props_PortMetrics.v
theories/ZephyrHttp.v
theories/ZephyrHttpSpec.v
theories/ZephyrHttpProofs.v
theories/Props_ZephyrHttp.v
theories/ZephyrOta.v
theories/ZephyrOtaSpec.v
theories/ZephyrOtaProofs.v
theories/ZephyrSock.v
theories/ZephyrSockSpec.v
theories/ZephyrSockProofs.v
theories/Props_ZephyrOta.v
theories/SinkProofs.v
theories/EspHttp.v
theories/EspHttpSpec.v
theories/EspHttpProofs.v
theories/Props_EspHttp.v
theories/EspOta.v
theories/EspOtaSpec.v
theories/EspOtaProofs.v
theories/Props_EspOta.v
theories/Mds.v
theories/MdsSpec.v
theories/MdsProofs.v
theories/Props_Mds.v
theories/PortReset.v
theories/PortResetSpec.v
theories/PortResetProofs.v
theories/PortBootSpec.v
theories/PortBootProofs.v
theories/Props_PortReset.v
theories/Props_StorageOut.v
theories/PortHttp.v
theories/PortHttpSpec.v
theories/PortHttpProofs.v
theories/Props_PortHttp.v
theories/PortConn.v
theories/PortConnSpec.v
theories/PortConnProofs.v
theories/Props_PortConn.v
theories/PortWatchdog.v
theories/PortWatchdogSpec.v
theories/PortWatchdogProofs.v
theories/Props_PortWatchdog.v
theories/ZephyrLog.v
theories/ZephyrLogSpec.v
theories/ZephyrLogProofs.v
theories/Props_ZephyrLog.v
theories/SelfTest.v
theories/SelfTestSpec.v
theories/SelfTestProofs.v
theories/Props_SelfTest.v
theories/Fota.v
theories/FotaSpec.v
theories/FotaProofs.v
theories/Props_Fota.v
theories/PortFault.v
theories/PortFaultSpec.v
theories/PortFaultProofs.v
theories/Props_PortFault.v
theories/Conc.v
theories/ConcSpec.v
theories/ConcProofs.v
theories/EventConc.v
theories/EventConcSpec.v
theories/EventConcProofs.v
theories/Props_EventConc.v
theories/LockConc.v
theories/LockConcSpec.v
theories/LockConcProofs.v
theories/LockUsesProofs.v
theories/LockMetricsProofs.v
theories/Props_LockConc.v
theories/DeviceId.v
theories/DeviceIdSpec.v
theories/DeviceIdProofs.v
theories/Props_DeviceId.v
theories/PortTime.v
theories/PortTimeSpec.v
theories/PortTimeProofs.v
theories/Props_PortTime.v
theories/PortUpload.v
theories/PortUploadSpec.v
theories/PortUploadProofs.v
theories/Props_PortUpload.v
theories/Particle.v
theories/ParticleSpec.v
theories/ParticleProofs.v
theories/Props_Particle.v
theories/EspWifi.v
theories/EspWifiSpec.v
theories/EspWifiProofs.v
theories/Props_EspWifi.v
theories/ConnTime.v
theories/ConnTimeSpec.v
theories/ConnTimeProofs.v
theories/Props_ConnTime.v
theories/PortCapture.v
theories/PortCaptureSpec.v
theories/PortCaptureProofs.v
theories/Props_PortCapture.v
theories/ZephyrLegacy.v
theories/ZephyrLegacySpec.v
theories/ZephyrLegacyProofs.v
theories/Props_ZephyrLegacy.v
theories/Esp8266Http.v
theories/Esp8266HttpSpec.v
theories/Esp8266HttpProofs.v
theories/Props_Esp8266Http.v
theories/ParticleDevice.v
theories/ParticleDeviceSpec.v
theories/ParticleDeviceProofs.v
theories/Props_ParticleDevice.v
theories/RootCerts.v
theories/RootCertsSpec.v
theories/RootCertsProofs.v
theories/Props_RootCerts.v
theories/DebugLog.v
theories/DebugLogSpec.v
theories/DebugLogProofs.v
theories/Props_DebugLog.v
theories/ArmArch.v
theories/ArmArchSpec.v
theories/Props_ArmArch.v
theories/EspFlash.v
theories/EspFlashSpec.v
theories/EspFlashProofs.v
theories/Props_EspFlash.v
theories/BuildIdTool.v
theories/BuildIdToolSpec.v
theories/BuildIdToolProofs.v
theories/Props_BuildIdTool.v
theories/GdbCoredump.v
theories/GdbCoredumpSpec.v
theories/GdbCoredumpProofs.v
theories/Props_GdbCoredump.v
theories/Psoc6Metrics.v
theories/Psoc6MetricsSpec.v
theories/Psoc6MetricsProofs.v
theories/Props_Psoc6Metrics.v
theories/GdbTarget.v
theories/GdbTargetSpec.v
theories/GdbTargetProofs.v
theories/Props_GdbTarget.v
theories/EclipsePatch.v
theories/EclipsePatchSpec.v
theories/EclipsePatchProofs.v
theories/Props_EclipsePatch.v
theories/EclipseFlags.v
theories/EclipseFlagsSpec.v
theories/EclipseFlagsProofs.v
theories/Props_EclipseFlags.v
theories/CmsisPack.v
theories/CmsisPackSpec.v
theories/CmsisPackProofs.v
theories/Props_CmsisPack.v
theories/Arduino.v
theories/ArduinoSpec.v
theories/ArduinoProofs.v
theories/Props_Arduino.v
theories/CliCommands.v
theories/CliCommandsSpec.v
theories/CliCommandsProofs.v
theories/Props_CliCommands.v
theories/ChunkWatch.v
theories/ChunkWatchSpec.v
theories/ChunkWatchProofs.v
theories/Props_ChunkWatch.v
theories/GdbUpload.v
theories/GdbUploadSpec.v
theories/GdbUploadProofs.v
theories/Props_GdbUpload.v
theories/PortSelfTest.v
theories/PortSelfTestSpec.v
theories/PortSelfTestProofs.v
theories/Props_PortSelfTest.v
theories/MynewtShell.v
theories/MynewtShellSpec.v
theories/Props_MynewtShell.v
theories/GdbSections.v
theories/GdbSectionsSpec.v
theories/GdbSectionsProofs.v
theories/Props_GdbSections.v
theories/PortOrder.v
theories/PortOrderSpec.v
theories/PortOrderProofs.v
theories/Props_PortOrder.v
theories/MacroArgs.v
theories/MacroArgsSpec.v
theories/MacroArgsProofs.v
theories/Props_MacroArgs.v
theories/DemoCommands.v
theories/DemoCommandsSpec.v
theories/Props_DemoCommands.v
theories/DemoTrace.v
theories/DemoTraceSpec.v
theories/Props_DemoTrace.v
