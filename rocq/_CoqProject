-Q theories Verif
theories/PyBase.v
theories/ListLemmas.v
theories/MemCache.v
theories/MemCacheSpec.v
theories/MemCacheProofs.v
theories/MemCacheProofs2.v
theories/MemCacheProofs3.v
theories/MemCacheProofs4.v
theories/MemCacheProofs5.v
theories/MemCacheDemo.v
theories/Props_MemCache.v
theories/MemCacheConc.v
theories/MemCacheConcProofs.v
theories/Props_MemCacheConc.v
theories/PyStr.v
theories/Humanize.v
theories/HumanizeSpec.v
theories/HumanizeProofs.v
theories/Props_Humanize.v
theories/Config.v
theories/ConfigSpec.v
theories/ConfigProofs.v
theories/ConfigProofs2.v
theories/ConfigProofs3.v
theories/ConfigMem.v
theories/Props_Config.v
theories/Startup.v
theories/StartupSpec.v
theories/StartupProofs.v
theories/Props_Startup.v
theories/Show.v
theories/ShowSpec.v
theories/ShowProofs.v
theories/Props_Show.v
theories/EndRemoteSpec.v
theories/Props_EndRemote.v
theories/Float64.v
theories/GridSpec.v
theories/GridVocab.v
theories/FloatReal.v
theories/GridLon.v
theories/GridProofs.v
theories/GridProofs2.v
theories/GridProofs3.v
theories/GridMatchSpec.v
theories/GridReal.v
theories/GridMatch.v
theories/GridMatch2.v
theories/GridMatch3.v
theories/GridDecide.v
theories/Props_Grid.v
theories/Index.v
theories/IndexSpec.v
theories/IndexProofs.v
theories/IndexProofs2.v
theories/Db.v
theories/DbProofs.v
theories/Props_Index.v
theories/Regrid.v
theories/RegridSpec.v
theories/RegridProofs.v
theories/Props_Regrid.v
theories/Dispatch.v
theories/Props_Dispatch.v
theories/Disk.v
theories/DiskSpec.v
theories/DiskProofs.v
theories/DiskProofs2.v
theories/Props_Disk.v
theories/Props_Disk2.v
theories/Protocol.v
theories/ProtocolProofs.v
theories/Props_Protocol.v
theories/Key.v
theories/KeySpec.v
theories/KeyProofs.v
theories/Props_Key.v
theories/CacheFile.v
theories/Props_CacheFile.v
theories/Policy.v
theories/PolicyProofs.v
theories/Props_Policy.v
theories/HumanBytes.v
theories/Props_HumanBytes.v
theories/Props_HumanBytes2.v
theories/Manager.v
theories/ManagerSpec.v
theories/ManagerProofs.v
theories/ManagerTerm.v
theories/ManagerPolicy.v
theories/Props_Manager.v
theories/Stream.v
theories/StreamSpec.v
theories/StreamProofs.v
theories/Mir.v
theories/MirSpec.v
theories/MirProofs.v
theories/Props_Stream.v
theories/Props_Mir.v
theories/Builder.v
theories/BuilderSpec.v
theories/BuilderProofs.v
theories/Props_Builder.v
theories/RegridFloat.v
theories/Props_RegridFloat.v
theories/Inventory.v
theories/Props_Inventory.v
theories/System.v
theories/SystemSpec.v
theories/SystemProofs.v
theories/EndSpec.v
theories/EndProofs.v
theories/Props_System.v
theories/Props_End.v
theories/Remote.v
theories/RemoteSpec.v
theories/RemoteProofs.v
theories/RemoteProofs2.v
theories/RemoteProofs3.v
theories/RemoteProofs4.v
theories/RemoteLimits.v
theories/RemoteTight.v
theories/Props_Remote.v
theories/Props_Limits.v
theories/RemoteProofs5.v
theories/RemoteProofs6.v
theories/Props_Current.v
theories/Xarray.v
theories/XarraySpec.v
theories/XarrayProofs.v
theories/XarrayProofs2.v
theories/XarrayTotal.v
theories/Props_Xarray.v
theories/Api.v
theories/ApiSpec.v
theories/ApiProofs.v
theories/Props_Api.v
theories/MirCalls.v
theories/Props_MirCalls.v
theories/Props_ApiLocal.v
theories/ApiTrace.v
theories/ApiRemote.v
theories/ApiRemoteSpec.v
theories/Props_ApiRemote.v
theories/Props_ApiRemote2.v
theories/Every.v
theories/EverySpec.v
theories/EveryProofs.v
theories/EveryProofs2.v
theories/Props_Every.v
theories/Props_Every2.v
theories/Props_Every3.v
theories/Props_Bytes.v
theories/Pages.v
theories/PagesSpec.v
theories/PagesProofs.v
theories/Props_Pages.v
theories/BuildDb.v
theories/Props_BuildDb.v
theories/XarrayApi.v
theories/Props_XarrayApi.v
theories/Props_XarrayTotal.v
theories/Props_XarrayEvery.v
theories/Props_BuildDb2.v
theories/Docs.v
theories/Props_Docs.v
theories/Helpers.v
theories/Props_Helpers.v
theories/EndApiSpec.v
theories/Props_EndApi.v
theories/EndLocalSpec.v
theories/Props_EndLocal.v
theories/EndEverySpec.v
theories/Props_EndEvery.v
theories/Props_EndEvery2.v
theories/Props_EndEvery3.v
theories/Props_EndXarray.v
theories/Props_EndXarray2.v
theories/RemoteOff.v
theories/RemoteOffSpec.v
theories/RemoteOffProofs.v
theories/RemoteOffProofs2.v
theories/Props_Off.v
theories/DbConc.v
theories/DbConcProofs.v
theories/DbConcProofs2.v
theories/DbConcProofs3.v
theories/Props_DbConc.v
theories/Props_Numpy.v
theories/ConfigConc.v
theories/ConfigConcProofs.v
theories/ConfigConcProofs2.v
theories/Props_ConfigConc.v
theories/SaveConc.v
theories/SaveConcProofs.v
theories/SaveConcProofs2.v
theories/SaveConcProofs3.v
theories/SettingsConc.v
theories/SettingsConcProofs.v
theories/SettingsConcProofs2.v
theories/SettingsConcProofs3.v
theories/SettingsConcProofs4.v
theories/Props_SettingsConc.v
theories/FileConc.v
theories/FileConcProofs.v
theories/Props_FileConc.v
theories/PolicyConc.v
theories/PolicyConcProofs.v
theories/PolicyConcProofs2.v
theories/PolicyConcProofs3.v
theories/Props_PolicyConc.v
theories/Props_SaveConc.v
theories/Props_Missing.v
theories/Scripts.v
theories/Props_Scripts.v
theories/RemoteConc.v
theories/Props_RemoteConc.v
theories/MakerConc.v
theories/Props_MakerConc.v
theories/FlagConc.v
theories/Props_FlagConc.v
theories/PairConc.v
theories/Props_PairConc.v
theories/Installed.v
theories/Props_Installed.v
theories/Guide.v
theories/Props_Guide.v
theories/Guide2.v
theories/Props_Guide2.v
