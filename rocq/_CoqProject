-Q theories Verif
theories/Num.v
theories/Constants.v
theories/Functions.v
theories/Libsnobal.v
theories/Input.v
theories/SnowState.v
theories/Snobal.v
theories/PySnobal.v
theories/FloatNum.v
theories/Gold.v
theories/Real.v
theories/SchedSpec.v
theories/Sched.v
theories/Frame.v
theories/SchedProps.v
theories/Spec.v
theories/Averages.v
theories/Forcing.v
theories/Phys.v
theories/Thm_Schedule.v
theories/Turb.v
theories/Turb2.v
theories/Mass.v
theories/MassEnd.v
theories/RunMass.v
theories/Run.v
theories/Thm_Mass.v
theories/Thm_Forcing.v
theories/Thm_Phys.v
theories/Thm_Turb.v
theories/Thm_Pack.v
theories/Progress.v
theories/Progress2.v
theories/Thm_Progress.v
theories/Thm_Turb2.v
theories/Witness.v
theories/MeltEnergy.v
theories/Kept.v
theories/Thm_Energy.v
theories/Witness2.v
theories/Witness3.v
theories/Thm_Api.v
theories/Thm_Init.v
theories/Spatial.v
theories/Thm_Spatial.v
theories/Cache.v
theories/Thm_Cache.v
theories/Heap.v
theories/Thm_Heap.v
theories/Thm_Water.v
theories/Strip.v
theories/Modes.v
theories/Thm_Modes.v
theories/Thm_Shift.v
theories/Thm_Sun.v
theories/Format.v
theories/Thm_Format.v
theories/Thm_Records.v
theories/Depth.v
theories/Thm_Depth.v
theories/Turb3.v
theories/Thm_Turb3.v
theories/Laws.v
theories/Thm_Laws.v
theories/Thm_Conduct.v
theories/Thm_Freeze.v
theories/Thm_Files.v
theories/Thm_Negative.v
theories/Grid.v
theories/Thm_Grid.v
theories/Thm_FileEnergy.v
theories/Thm_Forget.v
theories/Thm_Start.v
theories/Arrays.v
theories/Thm_Arrays.v
theories/Gridded.v
theories/Thm_Gridded.v
theories/Thm_Sky.v
theories/Thm_Dry.v
theories/Thm_Weather.v
theories/FloatLaws.v
theories/Thm_Double.v
theories/TimeZone.v
theories/Thm_Zone.v
theories/Columns.v
theories/Thm_Columns.v
theories/Object.v
theories/Thm_Object.v
theories/Thm_Buried.v
theories/Thm_Steps.v
theories/Config.v
theories/Thm_Config.v
theories/Thm_Second.v
theories/Thm_NoRoom.v
theories/Thm_Vapour.v
theories/Thm_Guards.v
theories/Thm_Errors.v
theories/Thm_Phase.v
theories/Thm_Percent.v
