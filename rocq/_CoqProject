-Q theories Verif
theories/M_Base.v
theories/L_Base.v
theories/M_Time.v
theories/S_Time.v
theories/L_Time.v
theories/M_TestSpec.v
theories/S_TestSpec.v
theories/L_TestSpec.v
theories/T_TestSpec.v
theories/M_FloatTime.v
theories/L_FloatTime.v
theories/T_Float.v
theories/M_Num.v
theories/M_Nd.v
theories/L_Nd.v
theories/M_RandVar.v
theories/M_Latent.v
theories/S_Latent.v
theories/L_Latent.v
theories/M_NumR.v
theories/M_NumB.v
theories/M_Toy.v
theories/S_Dist.v
theories/L_Dist.v
theories/T_Latent.v
theories/M_Minimize.v
theories/S_Minimize.v
theories/L_Minimize.v
theories/T_Minimize.v
theories/M_Device.v
theories/S_Device.v
theories/S_DeviceR.v
theories/L_Device.v
theories/L_Device2.v
theories/L_Device3.v
theories/L_DeviceR.v
theories/T_Device.v
theories/M_Report.v
theories/M_Env.v
theories/M_Sim.v
theories/S_Sim.v
theories/L_Sim.v
theories/L_Sim2.v
theories/S_Env.v
theories/L_Env.v
theories/L_Env2.v
theories/L_Env3.v
theories/S_EnvR.v
theories/L_EnvR.v
theories/L_Sim3.v
theories/L_Sim4.v
theories/L_Sim5.v
theories/T_Sim.v
theories/T_Sim2.v
theories/T_Env.v
theories/M_Logger.v
theories/S_Logger.v
theories/L_Logger.v
theories/T_Logger.v
theories/M_Cookbook.v
theories/S_Cookbook.v
theories/L_Cookbook.v
theories/T_Cookbook.v
theories/M_Export.v
theories/S_Export.v
theories/L_Export.v
theories/L_Export2.v
theories/T_Export.v
theories/S_Report.v
theories/L_Report.v
theories/S_Shape.v
theories/L_Shape.v
theories/L_Shape2.v
theories/T_Shape.v
theories/T_Report.v
theories/S_Order.v
theories/L_Order.v
theories/T_Order.v
theories/M_CookEnv.v
theories/S_CookEnv.v
theories/L_CookEnv.v
theories/L_CookEnvR.v
theories/T_CookEnv.v
theories/M_LatentMdl.v
theories/S_LatentMdl.v
theories/L_LatentMdl.v
theories/T_LatentMdl.v
theories/M_CookMech.v
theories/S_CookMech.v
theories/L_CookMech.v
theories/T_CookMech.v
theories/S_Sum.v
theories/L_Sum.v
theories/T_Sum.v
theories/S_Total.v
theories/L_Total.v
theories/L_Total2.v
theories/T_Total.v
theories/S_Value.v
theories/L_Value.v
theories/T_Value.v
theories/S_Reading.v
theories/L_Reading.v
theories/T_Reading.v
theories/M_Build.v
theories/S_Build.v
theories/L_Build.v
theories/T_Build.v
theories/S_Rows.v
theories/L_Rows.v
theories/T_Rows.v
theories/M_Demo.v
theories/S_Demo.v
theories/L_Demo.v
theories/L_Demo2.v
theories/L_Demo3.v
theories/L_Demo4.v
theories/T_Demo.v
theories/S_History.v
theories/S_HistoryR.v
theories/L_History.v
theories/L_HistoryR.v
theories/T_History.v
theories/T_Suite.v
theories/S_Foot.v
theories/L_Foot.v
theories/L_Foot2.v
theories/T_Foot.v
theories/L_Foot3.v
theories/T_Foot2.v
theories/S_Circ.v
theories/L_Circ.v
theories/T_Circ.v
theories/S_Const.v
theories/L_Const.v
theories/T_Const.v
theories/T_Grow.v
theories/S_Brent.v
theories/L_Brent.v
theories/T_Brent.v
theories/S_Digits.v
theories/L_Digits.v
theories/T_Digits.v
theories/S_Parts.v
theories/L_Parts.v
theories/T_Parts.v
theories/M_Import.v
theories/S_Import.v
theories/L_Import.v
theories/T_Import.v
theories/L_Rising.v
theories/S_Search.v
theories/L_Search.v
theories/L_Search2.v
theories/L_Golden.v
theories/T_Search.v
theories/S_MinB.v
theories/L_MinB.v
theories/L_MinB2.v
theories/L_MinB3.v
theories/L_MinB4.v
theories/L_MinB5.v
theories/L_MinB6.v
theories/T_MinB.v
theories/S_Exn.v
theories/L_Exn.v
theories/L_Exn2.v
theories/L_Origin.v
theories/T_Exn.v
theories/S_Expo.v
theories/L_Mixed.v
theories/L_Expo.v
theories/L_Expo2.v
theories/T_Expo.v
theories/S_Series.v
theories/L_Series.v
theories/T_Series.v
theories/M_Script.v
theories/S_Script.v
theories/L_Script.v
theories/L_Script2.v
theories/L_Draw.v
theories/L_Draw2.v
theories/L_Draw3.v
theories/T_Script.v
theories/T_Draw.v
theories/S_Fail.v
theories/L_Fail.v
theories/L_Fail2.v
theories/L_Fail3.v
theories/T_Fail.v
theories/S_Obey.v
theories/L_Obey.v
theories/T_Obey.v
theories/M_Objects.v
theories/S_Objects.v
theories/L_Objects.v
theories/T_Objects.v
theories/M_Range.v
theories/S_Range.v
theories/L_Range.v
theories/T_Range.v
theories/M_Reuse.v
theories/S_Reuse.v
theories/L_Reuse.v
theories/T_Reuse.v
theories/M_InPlace.v
theories/S_InPlace.v
theories/L_InPlace.v
theories/L_InPlace2.v
theories/L_InPlace3.v
theories/L_InPlace4.v
theories/L_InPlace5.v
theories/L_InPlace6.v
theories/T_InPlace.v
theories/S_Moments.v
theories/L_Moments.v
theories/L_Moments2.v
theories/L_Moments3.v
theories/T_Moments.v
theories/S_Moments2.v
theories/L_Moments4.v
theories/L_Moments5.v
theories/L_Moments6.v
theories/L_Moments7.v
theories/T_Moments2.v
theories/M_File.v
theories/S_File.v
theories/L_File.v
theories/T_File.v
theories/S_Rigid.v
theories/L_Rigid.v
theories/L_Rigid2.v
theories/T_Rigid.v
