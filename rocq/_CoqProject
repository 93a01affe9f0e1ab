-Q theories Verif

theories/Base.v
theories/L_Base.v
theories/M_CPUInfo.v
theories/S_CPUInfo.v
theories/L_CPUInfo.v
theories/L_CPUInfo2.v
theories/L_Hotplug.v
theories/X_CPUInfo.v
theories/P_CPUInfo.v
theories/L_Monad.v
theories/M_MSR.v
theories/S_MSR.v
theories/L_Bits.v
theories/L_MSR.v
theories/L_MSR2.v
theories/L_MSR3.v
theories/L_MSR4.v
theories/X_MSR.v
theories/P_MSR.v
theories/M_Text.v
theories/S_Text.v
theories/L_Text.v
theories/X_Text.v
theories/P_Text.v
theories/M_Sysfs.v
theories/S_Sysfs.v
theories/L_Sysfs.v
theories/X_Sysfs.v
theories/P_Sysfs.v
theories/M_Kver.v
theories/S_Kver.v
theories/L_Kver.v
theories/P_Kver.v
theories/M_Osa.v
theories/S_Osa.v
theories/L_Osa.v
theories/X_Osa.v
theories/P_Osa.v
theories/M_Tpmi.v
theories/S_Tpmi.v
theories/L_Tpmi.v
theories/L_Tpmi2.v
theories/L_Tpmi3.v
theories/L_Tpmi4.v
theories/L_Tpmi5.v
theories/L_Tpmi6.v
theories/X_Tpmi.v
theories/P_Tpmi.v
theories/M_Online.v
theories/S_Online.v
theories/L_Online.v
theories/X_Online.v
theories/P_Online.v
theories/M_Props.v
theories/S_Props.v
theories/L_Props.v
theories/L_Props2.v
theories/L_Props3.v
theories/L_Props4.v
theories/X_Props.v
theories/P_Props.v
theories/M_FMSR.v
theories/S_FMSR.v
theories/L_FMSR.v
theories/L_FMSR2.v
theories/L_FMSR3.v
theories/X_FMSR.v
theories/P_FMSR.v
theories/M_PCState.v
theories/S_PCState.v
theories/L_PCState.v
theories/X_PCState.v
theories/P_PCState.v
theories/L_MSR5.v
theories/M_Power.v
theories/S_Power.v
theories/L_Power.v
theories/L_Power2.v
theories/L_Power3.v
theories/X_Power.v
theories/P_Power.v
theories/M_OpTarget.v
theories/S_OpTarget.v
theories/L_OpTarget.v
theories/L_OpTarget2.v
theories/L_OpTarget3.v
theories/L_OpTarget4.v
theories/L_OpTarget5.v
theories/X_OpTarget.v
theories/P_OpTarget.v
theories/L_Power4.v
theories/M_Human.v
theories/S_Human.v
theories/L_Human.v
theories/L_Human2.v
theories/L_Human3.v
theories/L_Human4.v
theories/L_Human5.v
theories/L_Human6.v
theories/L_Human7.v
theories/X_Human.v
theories/P_Human.v
theories/S_SysView.v
theories/L_SysView.v
theories/M_PMQoS.v
theories/S_PMQoS.v
theories/L_PMQoS.v
theories/X_PMQoS.v
theories/P_PMQoS.v
theories/M_Uncore.v
theories/S_Uncore.v
theories/L_Uncore.v
theories/L_Uncore2.v
theories/L_Uncore3.v
theories/X_Uncore.v
theories/P_Uncore.v
theories/M_CPUFreq.v
theories/M_PStates.v
theories/S_PStates.v
theories/L_PStates.v
theories/L_PStates2.v
theories/L_CPUFreq.v
theories/L_CPUFreq2.v
theories/L_CPUFreq3.v
theories/L_Uncore4.v
theories/L_PStates3.v
theories/X_PStates.v
theories/P_PStates.v
theories/M_HWP.v
theories/S_HWP.v
theories/L_Quiet.v
theories/L_FMSR4.v
theories/L_HWP.v
theories/L_HWP2.v
theories/L_HWP3.v
theories/L_HWP4.v
theories/L_HWP5.v
theories/L_HWP6.v
theories/X_HWP.v
theories/P_HWP.v
theories/M_EP.v
theories/S_EP.v
theories/L_Pure.v
theories/L_EP.v
theories/L_EP2.v
theories/L_EP3.v
theories/L_EP4.v
theories/L_EP5.v
theories/L_EP6.v
theories/X_EP.v
theories/P_EP.v
theories/M_CPUIdle.v
theories/S_CPUIdle.v
theories/L_CPUIdle.v
theories/L_CPUIdle2.v
theories/L_CPUIdle3.v
theories/L_CPUIdle4.v
theories/L_CPUIdle5.v
theories/L_CPUIdle6.v
theories/L_CPUIdle7.v
theories/X_CPUIdle.v
theories/P_CPUIdle.v
theories/M_CSave.v
theories/S_CSave.v
theories/L_CSave.v
theories/L_CSave2.v
theories/L_CSave3.v
theories/L_CSave4.v
theories/X_CSave.v
theories/P_CSave.v
theories/M_Print.v
theories/S_Print.v
theories/L_Print.v
theories/L_Print2.v
theories/L_Print3.v
theories/L_Print4.v
theories/L_Print5.v
theories/L_Print6.v
theories/X_Print.v
theories/P_Print.v
theories/L_Uncore6.v
theories/M_CFreq.v
theories/S_CFreq.v
theories/L_CFreq.v
theories/L_CFreq2.v
theories/L_CFreq3.v
theories/L_CFreq4.v
theories/X_CFreq.v
theories/P_CFreq.v
theories/L_FMSR5.v
theories/L_FMSR6.v
theories/P_FMSR2.v
theories/M_FRead.v
theories/S_FRead.v
theories/L_FRead.v
theories/L_FRead2.v
theories/X_FRead.v
theories/P_FRead.v
theories/S_HWP2.v
theories/L_HWP7.v
theories/L_HWP8.v
theories/P_HWP2.v
theories/M_Proc.v
theories/S_Proc.v
theories/L_Proc.v
theories/L_Proc2.v
theories/L_Proc3.v
theories/L_Proc4.v
theories/L_Proc5.v
theories/L_Proc6.v
theories/X_Proc.v
theories/P_Proc.v
theories/M_Topo.v
theories/S_Topo.v
theories/L_Topo.v
theories/L_Topo2.v
theories/L_Topo3.v
theories/L_Topo4.v
theories/L_Topo5.v
theories/L_Topo6.v
theories/X_Topo.v
theories/P_Topo.v
theories/M_TopoInfo.v
theories/S_TopoInfo.v
theories/L_TopoInfo.v
theories/L_TopoInfo2.v
theories/L_TopoInfo3.v
theories/X_TopoInfo.v
theories/P_TopoInfo.v
theories/M_Setter.v
theories/S_Setter.v
theories/L_Setter.v
theories/L_Setter2.v
theories/X_Setter.v
theories/P_Setter.v
theories/M_Aspm.v
theories/S_Aspm.v
theories/L_Aspm.v
theories/L_Aspm2.v
theories/X_Aspm.v
theories/P_Aspm.v
theories/M_HpCmd.v
theories/S_HpCmd.v
theories/L_HpCmd.v
theories/X_HpCmd.v
theories/P_HpCmd.v
theories/M_TpmiCmd.v
theories/S_TpmiCmd.v
theories/L_TpmiCmd.v
theories/L_TpmiCmd2.v
theories/L_TpmiCmd3.v
theories/L_TpmiCmd4.v
theories/L_TpmiCmd5.v
theories/X_TpmiCmd.v
theories/P_TpmiCmd.v
theories/M_Cmdline.v
theories/S_Cmdline.v
theories/L_Cmdline.v
theories/X_Cmdline.v
theories/P_Cmdline.v
theories/M_CsConf.v
theories/S_CsConf.v
theories/L_CsConf.v
theories/L_CsConf2.v
theories/L_CsConf3.v
theories/L_CsConf4.v
theories/X_CsConf.v
theories/P_CsConf.v
theories/M_Yaml.v
theories/S_Yaml.v
theories/L_Yaml.v
theories/L_Yaml2.v
theories/L_Yaml3.v
theories/L_Yaml4.v
theories/L_Yaml5.v
theories/L_Yaml6.v
theories/X_Yaml.v
theories/P_Yaml.v
theories/L_Topo7.v
theories/L_CsConf5.v
theories/M_Remote.v
theories/S_Remote.v
theories/L_Remote.v
theories/L_Remote2.v
theories/L_Remote3.v
theories/L_Remote4.v
theories/X_Remote.v
theories/P_Remote.v
theories/M_Fmt.v
theories/S_Fmt.v
theories/L_Fmt.v
theories/L_Fmt2.v
theories/L_Fmt3.v
theories/X_Fmt.v
theories/P_Fmt.v
theories/L_PCState2.v
theories/P_PCState2.v
theories/L_Fmt4.v
theories/M_TpmiSpec.v
theories/S_TpmiSpec.v
theories/L_TpmiSpec.v
theories/L_TpmiSpec2.v
theories/L_TpmiSpec3.v
theories/L_TpmiSpec4.v
theories/L_TpmiSpec5.v
theories/L_TpmiSpec6.v
theories/X_TpmiSpec.v
theories/P_TpmiSpec.v
theories/M_InfoCmd.v
theories/S_InfoCmd.v
theories/L_InfoCmd.v
theories/L_InfoCmd2.v
theories/L_InfoCmd3.v
theories/L_InfoCmd4.v
theories/L_InfoCmd5.v
theories/X_InfoCmd.v
theories/P_InfoCmd.v
theories/S_Keep.v
theories/L_Keep.v
theories/L_Keep2.v
theories/L_Keep3.v
theories/L_Keep4.v
theories/X_Keep.v
theories/P_Keep.v
theories/M_Route.v
theories/S_Route.v
theories/L_Route.v
theories/L_Route2.v
theories/L_Route3.v
theories/L_Route4.v
theories/X_Route.v
theories/P_Route.v
theories/M_Systemd.v
theories/S_Systemd.v
theories/L_Systemd.v
theories/L_Systemd2.v
theories/L_Systemd3.v
theories/X_Systemd.v
theories/P_Systemd.v
theories/M_Driver.v
theories/S_Driver.v
theories/L_Driver.v
theories/L_Driver2.v
theories/X_Driver.v
theories/L_Driver3.v
theories/P_Driver.v
theories/M_Close.v
theories/S_Close.v
theories/L_Close.v
theories/L_Close2.v
theories/X_Close.v
theories/P_Close.v
theories/M_PCache.v
theories/S_PCache.v
theories/L_PCache.v
theories/X_PCache.v
theories/P_PCache.v
theories/M_ProjFiles.v
theories/S_ProjFiles.v
theories/L_ProjFiles.v
theories/L_ProjFiles2.v
theories/X_ProjFiles.v
theories/P_ProjFiles.v
theories/M_Prelude.v
theories/S_Prelude.v
theories/L_Prelude.v
theories/X_Prelude.v
theories/P_Prelude.v
theories/M_Ident.v
theories/S_Ident.v
theories/L_Ident.v
theories/L_Ident2.v
theories/L_Ident3.v
theories/L_Ident4.v
theories/X_Ident.v
theories/P_Ident.v
theories/M_EmulFile.v
theories/S_EmulFile.v
theories/L_EmulFile.v
theories/L_EmulFile2.v
theories/X_EmulFile.v
theories/P_EmulFile.v
theories/L_CPUIdle8.v
theories/P_CPUIdle8.v
theories/M_Tools.v
theories/S_Tools.v
theories/L_Tools.v
theories/X_Tools.v
theories/P_Tools.v
theories/M_Words.v
theories/S_Words.v
theories/L_Words.v
theories/X_Words.v
theories/P_Words.v
theories/M_YamlOut.v
theories/S_YamlOut.v
theories/L_YamlOut.v
theories/X_YamlOut.v
theories/P_YamlOut.v
