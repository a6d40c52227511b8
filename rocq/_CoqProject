-Q theories Verif
theories/Base.v
theories/M_Flags.v
theories/M_Loop.v
theories/M_RS1.v
theories/M_RS2.v
theories/M_RS3.v
theories/M_Heap.v
theories/M_PD0.v
theories/M_PD1.v
theories/M_PD2.v
theories/M_PD3.v
theories/Spec.v
theories/L_Base.v
theories/L_RS.v
theories/L_Range.v
theories/P_Range.v
theories/Spec_Loop.v
theories/L_Loop.v
theories/P_Loop.v
theories/L_Heap.v
theories/Spec_Array.v
theories/M_Class.v
theories/M_Bytes.v
theories/M_TecZone.v
theories/M_TecFile.v
theories/M_Read.v
theories/M_World.v
theories/Spec_Tec.v
theories/Spec_Plt.v
theories/Spec_Log.v
theories/Spec_Hist.v
theories/L_Lin.v
theories/L_Rep.v
theories/L_PD1.v
theories/L_PD2.v
theories/L_PD3.v
theories/L_Kind.v
theories/L_Copy.v
theories/L_World.v
theories/Spec_Reach.v
theories/Spec_Read.v
theories/L_ReadCall.v
theories/L_Sim.v
theories/L_Access.v
theories/L_Life.v
theories/L_Wrap.v
theories/L_Copies.v
theories/L_Disp.v
theories/Spec_Zero.v
theories/L_Zero.v
theories/Spec_Mode.v
theories/L_Mode.v
theories/P_Access.v
theories/P_Life.v
theories/P_Copy.v
theories/P_Disp.v
theories/P_Mode.v
theories/L_TecZone.v
theories/L_TecMin.v
theories/P_TecZone.v
theories/L_Plt.v
theories/L_Text.v
theories/L_TecWrite.v
theories/L_TecFile.v
theories/L_TecText.v
theories/L_TecWhole.v
theories/L_TecProp.v
theories/P_TecFile.v
theories/Spec_Aux.v
theories/L_Aux.v
theories/P_TecAux.v
theories/L_Read.v
theories/L_ReadKept.v
theories/L_ReadLog.v
theories/L_Round.v
theories/P_Read.v
theories/M_Scan.v
theories/M_Extract.v
theories/M_Texts.v
theories/Spec_Texts.v
theories/Spec_Extract.v
theories/M_Xml.v
theories/M_ReadXml.v
theories/Spec_Xml.v
theories/L_Scan.v
theories/L_ScanF.v
theories/L_Near.v
theories/L_Xml.v
theories/L_XmlSeq.v
theories/L_XmlText.v
theories/L_XmlLog.v
theories/L_XmlCut.v
theories/L_XmlRead.v
theories/L_Extract.v
theories/L_Texts.v
theories/L_Restart.v
theories/M_Describe.v
theories/Spec_Describe.v
theories/L_Describe.v
theories/P_Xml.v
theories/M_Client.v
theories/Spec_Client.v
theories/L_Client.v
theories/M_Examples.v
theories/L_Examples.v
theories/P_Client.v
theories/P_Restart.v
theories/P_Extract.v
theories/P_Texts.v
theories/Spec_Json.v
theories/L_Json.v
theories/L_JsonLog.v
theories/P_Json.v
theories/M_Screen.v
theories/Spec_Screen.v
theories/L_Screen.v
theories/L_ScreenLog.v
theories/P_Screen.v
theories/M_LogFiles.v
theories/Spec_LogFiles.v
theories/L_LogFiles.v
theories/L_LogSession.v
theories/P_LogFiles.v
theories/L_Dead.v
theories/M_Output.v
theories/Spec_Output.v
theories/L_Output.v
theories/P_Output.v
theories/Spec_Move.v
theories/L_Move.v
theories/P_Move.v
theories/M_HeatFile.v
theories/Spec_HeatFile.v
theories/L_HeatFile.v
theories/P_HeatFile.v
theories/M_Print.v
theories/Spec_Print.v
theories/L_Print.v
theories/L_PrintData.v
theories/P_Print.v
theories/Spec_XmlDoc.v
theories/L_XmlDoc.v
theories/L_XmlEdit.v
theories/P_XmlDoc.v
theories/L_Link.v
theories/M_Ring.v
theories/Spec_Ring.v
theories/L_Ring.v
theories/P_Ring.v
theories/M_Torus.v
theories/Spec_Torus.v
theories/L_Grid.v
theories/L_Torus.v
theories/P_Torus.v
theories/M_Except.v
theories/Spec_Except.v
theories/L_Except.v
theories/P_Except.v
theories/Spec_Doc.v
theories/L_Doc.v
theories/P_Doc.v
theories/L_Settle.v
theories/Spec_Settle.v
theories/L_Rewrite.v
theories/P_Settle.v
theories/M_XmlPrint.v
theories/Spec_Save.v
theories/L_XmlPrint.v
theories/L_XmlShape.v
theories/L_Save.v
theories/P_Save.v
theories/M_Reduce.v
theories/Spec_Reduce.v
theories/L_Reduce.v
theories/P_Reduce.v
theories/M_FSum.v
theories/Spec_FSum.v
theories/L_FSum.v
theories/P_FSum.v
theories/M_Case.v
theories/Spec_Case.v
theories/L_Nearest.v
theories/L_Literal.v
theories/L_Case.v
theories/P_Case.v
theories/M_FMul.v
theories/Spec_FMul.v
theories/L_FMul.v
theories/P_FMul.v
theories/M_Integral.v
theories/L_Integral.v
theories/P_Integral.v
theories/M_TimeLoop.v
theories/Spec_TimeLoop.v
theories/L_TimeLoop.v
theories/L_HeatRun.v
theories/P_TimeLoop.v
theories/Spec_HeatQ.v
theories/L_HeatQ.v
theories/P_HeatQ.v
theories/M_HeatD.v
theories/L_HeatD.v
theories/P_HeatD.v
theories/M_HeatD2.v
theories/L_HeatD2.v
theories/P_HeatD2.v
theories/L_Uniform.v
theories/P_Uniform.v
theories/L_Mirror.v
theories/L_MirrorD.v
theories/P_Mirror.v
