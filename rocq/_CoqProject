-Q theories Verif
theories/Prelude.v
theories/M_StratifiedTank.v
theories/S_Integral.v
theories/S_StratifiedTank.v
theories/L_Integral.v
theories/L_Ramp.v
theories/L_StratifiedTank.v
theories/L_StratifiedTank2.v
theories/L_StratifiedTank3.v
theories/P_StratifiedTank.v
theories/M_MixedTank.v
theories/S_MixedTank.v
theories/L_MixedTank.v
theories/P_MixedTank.v
theories/M_EnergyTank.v
theories/S_EnergyTank.v
theories/L_EnergyTank.v
theories/L_Slug.v
theories/P_EnergyTank.v
theories/M_Heater.v
theories/S_Heater.v
theories/L_Heater.v
theories/P_Heater.v
theories/M_Building.v
theories/S_Building.v
theories/L_Building.v
theories/D_Building.v
theories/P_Building.v
theories/M_Utility.v
theories/S_Utility.v
theories/L_Utility.v
theories/L_Utility2.v
theories/P_Utility.v
theories/M_SimRun.v
theories/S_SimRun.v
theories/L_SimRun.v
theories/L_SimCost.v
theories/L_SimCost2.v
theories/L_SimMisc.v
theories/P_SimRun.v
theories/M_Sizing.v
theories/S_Sizing.v
theories/L_Sizing.v
theories/L_Sizing2.v
theories/L_Sizing3.v
theories/L_Sizing4.v
theories/P_Sizing.v
theories/P_Sizing2.v
theories/M_Swing.v
theories/S_Swing.v
theories/L_Swing.v
theories/L_Swing2.v
theories/L_Swing3.v
theories/L_Swing4.v
theories/P_Swing.v
theories/P_Swing2.v
theories/L_SwingER.v
theories/P_SwingER.v
theories/M_Step.v
theories/S_Step.v
theories/L_Step.v
theories/L_Step2.v
theories/P_Step.v
theories/L_Step3.v
theories/L_Step4.v
theories/P_Step2.v
theories/L_Step5.v
theories/P_Step3.v
theories/L_Step6.v
theories/P_Step4.v
theories/M_MPRTP.v
theories/S_MPRTP.v
theories/L_MPRTP.v
theories/L_AvgHot.v
theories/L_MPRTP2.v
theories/P_MPRTP.v
theories/L_MPRTP3.v
theories/P_MPRTP2.v
theories/P_Tighten.v
theories/M_Engine.v
theories/S_Engine.v
theories/L_Engine.v
theories/L_Engine2.v
theories/P_Engine.v
theories/L_Engine3.v
theories/P_Engine2.v
theories/L_Engine4.v
theories/D_Models.v
theories/P_Engine3.v
theories/S_Location.v
theories/L_Engine5.v
theories/D_Climate.v
theories/P_Engine4.v
theories/S_EngineRun.v
theories/L_Engine6.v
theories/P_Engine5.v
theories/L_Engine7.v
theories/P_Engine6.v
theories/S_EngineSize.v
theories/L_Engine8.v
theories/P_Engine7.v
theories/M_EngineOut.v
theories/S_EngineOut.v
theories/L_Out.v
theories/L_Out2.v
theories/L_Out3.v
theories/L_Out4.v
theories/P_EngineOut.v
theories/M_Plot.v
theories/S_Plot.v
theories/L_Plot.v
theories/L_Plot2.v
theories/P_Plot.v
theories/S_Lasts.v
theories/L_Lasts.v
theories/L_Lasts2.v
theories/L_Lasts3.v
theories/P_Lasts.v
theories/S_Whole.v
theories/L_Whole.v
theories/P_Whole.v
theories/M_SwingER2.v
theories/S_SwingER2.v
theories/P_SwingER2.v
theories/L_SwingER3.v
theories/P_SwingER3.v
theories/M_Session.v
theories/S_Session.v
theories/L_Session.v
theories/P_Session.v
theories/S_Lasts2.v
theories/L_Lasts4.v
theories/P_Lasts2.v
theories/S_MPRTP2.v
theories/L_MPRTP4.v
theories/P_Boost.v
theories/S_Shipped.v
theories/L_Shipped.v
theories/P_Shipped.v
theories/S_Shift.v
theories/L_Shift.v
theories/P_Shift.v
theories/L_Shift2.v
theories/P_Shift2.v
theories/S_Cycle.v
theories/L_Cycle.v
theories/P_Cycle.v
theories/S_SwingLS.v
theories/L_SwingLS.v
theories/P_SwingLS.v
theories/S_Summary.v
theories/P_Summary.v
theories/M_CaGpd.v
theories/S_CaGpd.v
theories/D_CaGpd.v
theories/L_CaGpd.v
theories/P_CaGpd.v
theories/S_Built.v
theories/P_Built.v
theories/S_MPCurve.v
theories/P_MPCurve.v
theories/S_Tighten2.v
theories/P_Tighten2.v
theories/M_UtilityRaw.v
theories/S_UtilityRaw.v
theories/P_UtilityRaw.v
theories/M_Float.v
theories/L_Float.v
theories/P_Float.v
theories/M_Float2.v
theories/S_Float2.v
theories/L_Float2.v
theories/P_Float2.v
theories/S_Curve.v
theories/P_Curve.v
theories/S_Parts.v
theories/L_Parts.v
theories/P_Parts.v
theories/M_Factory.v
theories/S_Factory.v
theories/P_Factory.v
theories/M_Float3.v
theories/S_Float3.v
theories/L_Float3.v
theories/L_Float4.v
theories/L_Float5.v
theories/P_Float3.v
theories/S_SlugCycle.v
theories/L_SlugCycle.v
theories/L_SlugCycle2.v
theories/L_SlugCycle3.v
theories/P_SlugCycle.v
theories/P_Tighten3.v
theories/S_Audit.v
theories/L_Audit.v
theories/P_Audit.v
theories/L_Float6.v
theories/P_Float4.v
theories/P_NoClimate.v
theories/S_Audit2.v
theories/L_Audit2.v
theories/P_Audit2.v
theories/L_Audit3.v
theories/P_Audit3.v
theories/L_ShippedRun.v
theories/P_ShippedRun.v
theories/P_Pickled.v
theories/P_ShippedRun2.v
theories/P_Query.v
theories/P_ShippedCop.v
theories/M_RecircShare.v
theories/P_RecircShare.v
