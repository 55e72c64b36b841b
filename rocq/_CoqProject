-Q theories Verif
theories/M_Json.v
theories/D_Dense_Urban.v
theories/D_Urban.v
theories/D_Sub_Urban.v
theories/D_Links.v
theories/M_Base.v
theories/L_Base.v
theories/M_Params.v
theories/S_Config.v
theories/L_Params.v
theories/L_Config.v
theories/P_Config.v
theories/M_Geometry.v
theories/M_Pathloss.v
theories/M_Scenario.v
theories/M_Rain.v
theories/L_Pathloss.v
theories/L_Trig.v
theories/L_Geometry.v
theories/S_Topology.v
theories/M_Lsp.v
theories/S_Linear.v
theories/L_Linear.v
theories/L_Scenario.v
theories/L_Fresh.v
theories/S_Lsp.v
theories/L_Topology.v
theories/L_Corr.v
theories/L_Kernel.v
theories/L_Lsp.v
theories/P_Topology.v
theories/P_Lsp.v
theories/S_Pathloss.v
theories/L_Loss.v
theories/S_Gas.v
theories/L_Gas.v
theories/P_Pathloss.v
theories/M_Rays.v
theories/S_Rays.v
theories/L_Rays.v
theories/L_RaysEx.v
theories/P_Rays.v
theories/M_Antenna.v
theories/S_Antenna.v
theories/L_Antenna.v
theories/P_Antenna.v
theories/M_Cplx.v
theories/M_Coeff.v
theories/S_Coeff.v
theories/L_Rotation.v
theories/L_Coeff.v
theories/L_Recip.v
theories/P_Coeff.v
theories/S_Ray.v
theories/L_Ray.v
theories/P_Ray.v
theories/S_Mean.v
theories/L_Mean.v
theories/P_Mean.v
theories/S_MeanLink.v
theories/L_MeanLink.v
theories/L_MeanLinkEx.v
theories/P_MeanLink.v
theories/M_Channel.v
theories/S_Channel.v
theories/L_Chol.v
theories/L_Channel.v
theories/L_Link.v
theories/L_LinkEx.v
theories/L_Paths.v
theories/P_Channel.v
theories/M_Install.v
theories/S_Install.v
theories/L_Install.v
theories/P_Install.v
theories/M_TopoGen.v
theories/S_TopoGen.v
theories/L_TopoGen.v
theories/L_TopoUse.v
theories/P_TopoGen.v
theories/M_Convert.v
theories/S_Convert.v
theories/L_Csum.v
theories/L_Grids.v
theories/L_Convert.v
theories/L_CorrMat.v
theories/P_Convert.v
theories/S_Energy.v
theories/L_Energy.v
theories/P_Energy.v
theories/M_Links.v
theories/S_Links.v
theories/L_Tdl.v
theories/L_TdlCov.v
theories/L_TdlEx.v
theories/L_TdlLos.v
theories/L_TdlSplit.v
theories/L_TdlDoppler.v
theories/L_TdlSpread.v
theories/L_Cdl.v
theories/P_Links.v
theories/M_Dtype.v
theories/L_Dtype.v
theories/P_Dtype.v
theories/M_Invoke.v
theories/L_Invoke.v
theories/P_Invoke.v
theories/M_Getters.v
theories/S_Getters.v
theories/L_Getters.v
theories/P_Getters.v
theories/S_Bessel.v
theories/L_Bessel.v
theories/M_Array.v
theories/L_Array.v
theories/P_Array.v
theories/M_Gain.v
theories/S_Gain.v
theories/L_Gain.v
theories/P_Gain.v
theories/M_Float.v
theories/S_Float.v
theories/L_Float.v
theories/P_Float.v
theories/M_Objects.v
theories/S_Objects.v
theories/L_Objects.v
theories/P_Objects.v
theories/S_Wideband.v
theories/L_Wideband.v
theories/L_WidebandEx.v
theories/P_Wideband.v
theories/S_Isolation.v
theories/L_Isolation.v
theories/P_Isolation.v
theories/S_Motion.v
theories/S_Evolution.v
theories/L_Motion.v
theories/P_Motion.v
theories/L_Evolution.v
theories/P_Evolution.v
theories/L_RainNum.v
theories/L_Rain.v
theories/P_Rain.v
theories/S_Range.v
theories/L_Range.v
theories/P_Range.v
theories/L_Exact.v
theories/P_Exact.v
theories/L_Duality.v
theories/P_Duality.v
theories/L_SatPhase.v
theories/P_SatPhase.v
theories/M_Installer.v
theories/S_Installer.v
theories/L_Installer.v
theories/P_Installer.v
theories/M_Spatial.v
theories/L_Spatial.v
theories/P_Spatial.v
theories/L_Distances.v
theories/P_Distances.v
theories/M_Position.v
theories/L_Position.v
theories/P_Position.v
theories/S_Cloud.v
theories/L_Cloud.v
theories/P_Cloud.v
theories/M_Draw.v
theories/S_Draw.v
theories/L_Draw.v
theories/P_Draw.v
theories/M_PowerFp.v
theories/L_PowerFp.v
theories/P_PowerFp.v
theories/L_Refused.v
theories/P_Refused.v
theories/S_Renumber.v
theories/L_Renumber.v
theories/L_RenumberCov.v
theories/P_Renumber.v
theories/M_AngleFp.v
theories/L_AngleFp.v
theories/P_AngleFp.v
theories/M_ElementDraw.v
theories/S_ElementDraw.v
theories/L_ElementDraw.v
theories/P_ElementDraw.v
theories/S_Coupling.v
theories/L_Coupling.v
theories/P_Coupling.v
theories/L_SatSide.v
theories/L_SatArray.v
theories/L_SatSideEx.v
theories/P_SatSide.v
theories/M_BudgetFp.v
theories/S_BudgetFp.v
theories/L_BudgetFp.v
theories/P_BudgetFp.v
theories/S_LosFair.v
theories/L_LosFair.v
theories/P_LosFair.v
theories/S_Drop.v
theories/L_Drop.v
theories/P_Drop.v
