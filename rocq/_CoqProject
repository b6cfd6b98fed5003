-Q theories Verif
theories/Base.v
theories/BaseP.v
theories/ExampleData.v
theories/ExampleP.v
theories/FieldsP.v
theories/M_Af.v
theories/M_Agp.v
theories/M_AnyChunks.v
theories/M_Caps.v
theories/M_ClassCode.v
theories/M_Common.v
theories/M_DebugPort.v
theories/M_Default.v
theories/M_Ea.v
theories/M_Eq.v
theories/M_EqValues.v
theories/M_ErrorSource.v
theories/M_ErrorText.v
theories/M_ExtCaps.v
theories/M_ExtDvsec.v
theories/M_ExtErr.v
theories/M_ExtMfvc.v
theories/M_ExtMid.v
theories/M_ExtRcld.v
theories/M_ExtSerial.v
theories/M_ExtSmall.v
theories/M_ExtVc.v
theories/M_ExtVec.v
theories/M_F32.v
theories/M_Fpb.v
theories/M_Header.v
theories/M_Ht.v
theories/M_Msi.v
theories/M_MsiX.v
theories/M_Ord.v
theories/M_PciX.v
theories/M_Pcie.v
theories/M_Pm.v
theories/M_Sata.v
theories/M_Sizes.v
theories/M_SlotId.v
theories/M_Ssvid.v
theories/M_Vendor.v
theories/M_Vpd.v
theories/P_Absent.v
theories/P_Agp.v
theories/P_Align.v
theories/P_AnyChunks.v
theories/P_Assembled.v
theories/P_Bar.v
theories/P_Built.v
theories/P_CapLaid.v
theories/P_CapLaidEx.v
theories/P_CapLaidList.v
theories/P_CapLaidMore.v
theories/P_CapLaidPossible.v
theories/P_CapSmall.v
theories/P_Caps.v
theories/P_ChannelsLaid.v
theories/P_ChannelsLaidEx.v
theories/P_ChannelsLaidList.v
theories/P_ClassCode.v
theories/P_Codes.v
theories/P_Copied.v
theories/P_CopiedEx.v
theories/P_CopiedExt.v
theories/P_CopiedWhole.v
theories/P_Default.v
theories/P_Derived.v
theories/P_Ea.v
theories/P_EaLaid.v
theories/P_Eq.v
theories/P_EqualHeader.v
theories/P_EqualItems.v
theories/P_ErrorSites.v
theories/P_ErrorSource.v
theories/P_ErrorText.v
theories/P_ExtCaps.v
theories/P_ExtDvsec.v
theories/P_ExtErr.v
theories/P_ExtLaid.v
theories/P_ExtLaidErr.v
theories/P_ExtLaidEx.v
theories/P_ExtLaidList.v
theories/P_ExtLaidMore.v
theories/P_ExtLaidPossible.v
theories/P_ExtMfvc.v
theories/P_ExtMid.v
theories/P_ExtRcld.v
theories/P_ExtSmall.v
theories/P_ExtVc.v
theories/P_ExtVec.v
theories/P_F32.v
theories/P_Fpb.v
theories/P_FunctionChannelsLaid.v
theories/P_Gaps.v
theories/P_Header.v
theories/P_HeaderLaid.v
theories/P_HeaderLaidEx.v
theories/P_Ht.v
theories/P_Isolated.v
theories/P_Iter.v
theories/P_Kept.v
theories/P_KeptAll.v
theories/P_KeptArrays.v
theories/P_KeptBlocks.v
theories/P_KeptHeader.v
theories/P_KeptLast.v
theories/P_KeptLists.v
theories/P_KeptMore.v
theories/P_KeptPcie.v
theories/P_KeptRegs.v
theories/P_KeptRest.v
theories/P_Messages.v
theories/P_Observe.v
theories/P_ObserveVc.v
theories/P_Ord.v
theories/P_PciX.v
theories/P_Pcie.v
theories/P_PcieLaid.v
theories/P_PcieLaidCap.v
theories/P_PcieLaidEx.v
theories/P_PcieLaidList.v
theories/P_Placed.v
theories/P_PlacedEx.v
theories/P_PlacedExt.v
theories/P_Pm.v
theories/P_Possible.v
theories/P_ReadFor.v
theories/P_Relink.v
theories/P_Repeat.v
theories/P_Scan.v
theories/P_Sizes.v
theories/P_Stable.v
theories/P_StableWalk.v
theories/P_TablesLaid.v
theories/P_TablesLaidEx.v
theories/P_TablesLaidList.v
theories/P_Trailing.v
theories/P_Vendor.v
theories/P_Visible.v
theories/P_Whole.v
theories/R_Caps.v
theories/R_Ext.v
theories/R_Header.v
theories/S_Agp.v
theories/S_AnyChunks.v
theories/S_Assembled.v
theories/S_Built.v
theories/S_CapLaid.v
theories/S_CapSmall.v
theories/S_Caps.v
theories/S_ChannelsLaid.v
theories/S_ClassCode.v
theories/S_Codes.v
theories/S_Copied.v
theories/S_Ea.v
theories/S_EaLaid.v
theories/S_Equal.v
theories/S_ErrorSource.v
theories/S_ErrorText.v
theories/S_ExtCaps.v
theories/S_ExtDvsec.v
theories/S_ExtErr.v
theories/S_ExtLaid.v
theories/S_ExtMfvc.v
theories/S_ExtMid.v
theories/S_ExtRcld.v
theories/S_ExtSmall.v
theories/S_ExtVc.v
theories/S_ExtVec.v
theories/S_F32.v
theories/S_Fpb.v
theories/S_FunctionChannelsLaid.v
theories/S_Gaps.v
theories/S_Header.v
theories/S_HeaderLaid.v
theories/S_Ht.v
theories/S_Iter.v
theories/S_Kept.v
theories/S_KeptLists.v
theories/S_Messages.v
theories/S_Observe.v
theories/S_Ord.v
theories/S_PciX.v
theories/S_Pcie.v
theories/S_PcieLaid.v
theories/S_Placed.v
theories/S_Pm.v
theories/S_Possible.v
theories/S_Relink.v
theories/S_Repeat.v
theories/S_Sizes.v
theories/S_Stable.v
theories/S_TablesLaid.v
theories/S_Vendor.v
theories/S_Visible.v
theories/S_Whole.v
theories/Spec.v
theories/SpecDec.v
theories/T_Absent.v
theories/T_Align.v
theories/T_AnyChunks.v
theories/T_Assembled.v
theories/T_Bar.v
theories/T_Built.v
theories/T_CapLaid.v
theories/T_CapSmall.v
theories/T_Caps.v
theories/T_Caps2.v
theories/T_Caps3.v
theories/T_ChannelsLaid.v
theories/T_Codes.v
theories/T_Copied.v
theories/T_Default.v
theories/T_Derived.v
theories/T_EaLaid.v
theories/T_Eq.v
theories/T_Equal.v
theories/T_ErrorSource.v
theories/T_ErrorText.v
theories/T_ExtCaps.v
theories/T_ExtDvsec.v
theories/T_ExtErr.v
theories/T_ExtLaid.v
theories/T_ExtMfvc.v
theories/T_ExtMid.v
theories/T_ExtRcld.v
theories/T_ExtSmall.v
theories/T_ExtVc.v
theories/T_ExtVec.v
theories/T_F32.v
theories/T_Gaps.v
theories/T_Header.v
theories/T_HeaderLaid.v
theories/T_Isolated.v
theories/T_Iter.v
theories/T_Kept.v
theories/T_KeptLists.v
theories/T_Messages.v
theories/T_Observe.v
theories/T_Ord.v
theories/T_Pcie.v
theories/T_PcieLaid.v
theories/T_Placed.v
theories/T_Possible.v
theories/T_Relink.v
theories/T_Repeat.v
theories/T_Scan.v
theories/T_Sizes.v
theories/T_Stable.v
theories/T_TablesLaid.v
theories/T_Trailing.v
theories/T_Visible.v
theories/T_Whole.v
