-Q theories Verif
theories/Base.v
theories/BaseL.v
theories/M_Battery.v
theories/S_Battery.v
theories/L_Battery.v
theories/P_Battery.v
theories/M_HeatPump.v
theories/S_HeatPump.v
theories/L_HeatPump.v
theories/P_HeatPump.v
theories/M_Tools.v
theories/S_Tools.v
theories/L_Tools.v
theories/P_Tools.v
theories/M_FixedOrder.v
theories/S_FixedOrder.v
theories/L_FixedOrder.v
theories/L_FixedOrderSign.v
theories/L_FixedOrderHour.v
theories/L_FixedOrderProps.v
theories/L_FixedOrderMore.v
theories/L_FixedOrderRun.v
theories/P_FixedOrder.v
theories/M_Tank.v
theories/S_Tank.v
theories/L_Tank.v
theories/L_TankFlow.v
theories/L_TankProps.v
theories/L_TankHour.v
theories/P_Tank.v
theories/M_Grid.v
theories/S_Grid.v
theories/L_Grid.v
theories/P_Grid.v
theories/M_Sweep.v
theories/S_Sweep.v
theories/L_Sweep.v
theories/P_Sweep.v
theories/M_Process.v
theories/S_Process.v
theories/L_Process.v
theories/P_Process.v
theories/M_Main.v
theories/S_Main.v
theories/L_Main.v
theories/P_Main.v
theories/M_Kpi.v
theories/S_Kpi.v
theories/L_Kpi.v
theories/L_KpiSums.v
theories/L_KpiCost.v
theories/P_Kpi.v
theories/P_KpiFormulas.v
theories/M_Mpc.v
theories/S_Mpc.v
theories/L_Mpc.v
theories/L_MpcRecord.v
theories/L_MpcRun.v
theories/L_MpcObjective.v
theories/P_Mpc.v
theories/M_Lorentz.v
theories/S_Lorentz.v
theories/L_Lorentz.v
theories/P_Lorentz.v
theories/M_Demand.v
theories/S_Demand.v
theories/L_Demand.v
theories/L_DemandProfiles.v
theories/P_Demand.v
theories/P_DemandProfiles.v
theories/M_Renewables.v
theories/S_Renewables.v
theories/L_Renewables.v
theories/P_Renewables.v
theories/M_Regression.v
theories/S_Regression.v
theories/L_Regression.v
theories/L_LeastSquares.v
theories/P_Regression.v
theories/M_Excel.v
theories/S_Excel.v
theories/L_Excel.v
theories/L_ExcelSheets.v
theories/P_Excel.v
theories/M_Init.v
theories/S_Init.v
theories/L_Init.v
theories/P_Init.v
theories/P_InitReady.v
theories/P_InitSweep.v
theories/M_Plots.v
theories/S_Plots.v
theories/L_Plots.v
theories/L_PlotsHours.v
theories/L_Surfaces.v
theories/P_Plots.v
theories/M_Program.v
theories/S_Program.v
theories/L_Program.v
theories/L_ProgramRuns.v
theories/L_ProgramOk.v
theories/P_Program.v
theories/P_ProgramOk.v
theories/P_ProgramCases.v
theories/M_Float.v
theories/S_Float.v
theories/L_Float.v
theories/L_FloatBattery.v
theories/P_Float.v
theories/P_SwitchOff.v
theories/S_Prices.v
theories/L_Prices.v
theories/P_Prices.v
theories/S_Orders.v
theories/P_Orders.v
theories/P_ProgramPlant.v
theories/S_Weather.v
theories/P_Weather.v
theories/S_Sizing.v
theories/L_Sizing.v
theories/P_Sizing.v
theories/M_FloatHour.v
theories/S_FloatHour.v
theories/L_FloatHour.v
theories/P_FloatHour.v
theories/S_HeatPumpSize.v
theories/L_HeatPumpSize.v
theories/P_HeatPumpSize.v
theories/S_Easier.v
theories/L_Easier.v
theories/P_Easier.v
theories/S_Scale.v
theories/L_Scale.v
theories/P_Scale.v
theories/S_MpcOptimal.v
theories/L_MpcOptimal.v
theories/P_MpcOptimal.v
theories/S_Compare.v
theories/L_Compare.v
theories/P_Compare.v
theories/S_Account.v
theories/L_Account.v
theories/P_Account.v
theories/S_AccountMpc.v
theories/P_AccountMpc.v
theories/S_Window.v
theories/P_Window.v
theories/S_BetterPump.v
theories/P_BetterPump.v
theories/S_BetterPumpMpc.v
theories/P_BetterPumpMpc.v
theories/P_StoreRefuted.v
theories/S_SizingHeat.v
theories/L_SizingHeat.v
theories/P_SizingHeat.v
theories/M_FloatTotals.v
theories/S_FloatTotals.v
theories/L_FloatTotals.v
theories/P_FloatTotals.v
theories/P_BetterPumpEuler.v
theories/S_Start.v
theories/L_Start.v
theories/P_Start.v
theories/M_FloatRun.v
theories/S_FloatRun.v
theories/P_FloatRun.v
theories/S_BetterBattery.v
theories/L_BetterBattery.v
theories/P_BetterBattery.v
theories/S_Bill.v
theories/L_Bill.v
theories/P_Bill.v
theories/S_Ranking.v
theories/L_Ranking.v
theories/P_Ranking.v
theories/S_Sensible.v
theories/L_Sensible.v
theories/P_Sensible.v
theories/S_Books.v
theories/L_Books.v
theories/P_Books.v
theories/S_Rows.v
theories/L_Rows.v
theories/P_Rows.v
theories/S_Figures.v
theories/L_Figures.v
theories/P_Figures.v
theories/S_Less.v
theories/L_Less.v
theories/P_Less.v
theories/S_Repriced.v
theories/L_Repriced.v
theories/P_Repriced.v
theories/S_Efficient.v
theories/L_Efficient.v
theories/P_Efficient.v
theories/S_Periods.v
theories/L_Periods.v
theories/P_Periods.v
