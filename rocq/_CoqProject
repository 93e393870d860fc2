-Q theories Verif
theories/Base.v
theories/Pmf.v
theories/PmfSweep.v
theories/PmfFacts.v
theories/PmfReal.v
theories/RampCalc.v
theories/RampCalcFacts.v
theories/RampLinear.v
theories/P_Pmf.v
theories/RampGen.v
theories/RampStep.v
theories/RampRun.v
theories/RampMove.v
theories/RampPlan.v
theories/RampSafe.v
theories/RampAcc.v
theories/RampUser.v
theories/RampJump.v
theories/RampStop.v
theories/RampKeep.v
theories/RampMisc.v
theories/RampProp.v
theories/P_Ramp.v
theories/Queue.v
theories/QueueFacts.v
theories/QueuePos.v
theories/QueueHist.v
theories/QueueProp.v
theories/P_Queue.v
theories/AvrIsr.v
theories/P_Avr.v
theories/Stepper.v
theories/StepperSet.v
theories/P_Set.v
theories/StepperHist.v
theories/FrontHist.v
theories/FrontProp.v
theories/FrontFill.v
theories/FrontTask.v
theories/FrontStart.v
theories/FrontMove.v
theories/FrontPause.v
theories/P_Front.v
theories/P_End.v
theories/MoveTimed.v
theories/MoveTimedFacts.v
theories/MoveTimedProp.v
theories/P_Timed.v
theories/Engine.v
theories/EngineFacts.v
theories/EngineAuto.v
theories/EngineShare.v
theories/P_Engine.v
theories/Rmt.v
theories/RmtFacts.v
theories/RmtHist.v
theories/RmtCount.v
theories/P_Rmt.v
theories/UserHist.v
theories/UserRamp.v
theories/UserFront.v
theories/UserPlan.v
theories/UserShift.v
theories/P_User.v
theories/RampReport.v
theories/Report.v
theories/P_Report.v
theories/P_Jump.v
theories/P_Linear.v
theories/RmtV4.v
theories/RmtV4Facts.v
theories/RmtV4Hist.v
theories/RmtV4Count.v
theories/P_RmtV4.v
theories/UserStop.v
theories/P_Stop.v
theories/StepperConf.v
theories/RampPeriod.v
theories/P_Conf.v
theories/Mcpwm.v
theories/McpwmFacts.v
theories/McpwmProp.v
theories/P_Mcpwm.v
theories/ExtDir.v
theories/ExtFront.v
theories/P_Ext.v
theories/Due.v
theories/DueFacts.v
theories/DueExact.v
theories/DueProp.v
theories/DuePins.v
theories/P_Due.v
theories/RampDense.v
theories/AccessSim.v
theories/AvrStack.v
theories/RampWindow.v
theories/AvrTime.v
theories/P_AvrStack.v
theories/AvrPace.v
theories/P_AvrTime.v
theories/P_AvrPace.v
theories/P_Pause.v
theories/StackSim.v
theories/RmtStack.v
theories/P_RmtStack.v
theories/RmtEnd.v
theories/RmtV4Stack.v
theories/RmtV4End.v
theories/P_RmtV4Stack.v
theories/RampOne.v
theories/McpwmMove.v
theories/P_McpwmMove.v
theories/RampDir.v
theories/DueMove.v
theories/P_DueMove.v
theories/KeepRun.v
theories/P_KeepRun.v
theories/Pcnt.v
theories/Esp32Setup.v
theories/Esp32Task.v
theories/P_Esp32.v
