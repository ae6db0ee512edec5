-Q theories Verif
theories/Str.v
theories/Num.v
theories/Tables.v
theories/MeltsFileModel.v
theories/MeltsFileSpec.v
theories/MeltsFileProofs.v
theories/MeltsFileProps.v
theories/TsdModel.v
theories/TsdSpec.v
theories/TsdProofs.v
theories/TsdProps.v
theories/ElemTable.v
theories/FormulaModel.v
theories/FormulaSpec.v
theories/FormulaProofs.v
theories/FormulaProps.v
theories/RealTac.v
theories/Fo2Model.v
theories/Fo2Proofs.v
theories/Fo2Props.v
theories/Implicit.v
theories/EosSpec.v
theories/EosModel.v
theories/EosProofs.v
theories/EosVinet.v
theories/HpModel.v
theories/HpProofs.v
theories/HpConsist.v
theories/EosProps.v
theories/MassModel.v
theories/MassSpec.v
theories/MassProofs.v
theories/MassOps.v
theories/MassDrop.v
theories/MassSolve.v
theories/MassFrac.v
theories/MassProps.v
theories/MassCases.v
theories/InitCert.v
theories/InitModel.v
theories/InitProofs.v
theories/InitProps.v
theories/Sym.v
theories/SymNorm.v
theories/SolnSpec.v
theories/SolnModel.v
theories/ConData.v
theories/ConProofs.v
theories/SolnData.v
theories/SolnProofs.v
theories/SolnProps.v
theories/LaSpec.v
theories/LaBase.v
theories/HhModel.v
theories/HhProofs.v
theories/HftiProofs.v
theories/HftiSolve.v
theories/QuadModel.v
theories/QuadProofs.v
theories/LaProps.v
theories/CholModel.v
theories/CholProofs.v
theories/NashSpec.v
theories/NashModel.v
theories/NashProofs.v
theories/VmminProofs.v
theories/MarqProofs.v
theories/NashProps.v
theories/FracModel.v
theories/FracProps.v
theories/NodeModel.v
theories/NodeProps.v
theories/SupplyModel.v
theories/SupplyProps.v
theories/ReportModel.v
theories/ReportProps.v
theories/PropStrModel.v
theories/PropStrProps.v
theories/EquilModel.v
theories/EquilProps.v
theories/SilminModel.v
theories/SilminProps.v
theories/SilminRun.v
theories/SilminEnd.v
theories/SilminData.v
theories/LuModel.v
theories/LuProps.v
theories/CopyModel.v
theories/CopyProps.v
theories/PathModel.v
theories/PathProps.v
theories/XlsxModel.v
theories/XlsxProps.v
theories/FillModel.v
theories/FillProps.v
theories/FillFrac.v
theories/RedoxModel.v
theories/RedoxProps.v
theories/StepModel.v
theories/StepProofs.v
theories/StepSums.v
theories/StepProps.v
theories/LiqModel.v
theories/LiqProofs.v
theories/LiqProps.v
theories/VisProps.v
theories/HessModel.v
theories/HessFill.v
theories/HessGen.v
theories/HessSpec.v
theories/HessPhase.v
theories/HessBlock.v
theories/HessProofs.v
theories/HessProps.v
theories/HessLiq.v
theories/HessInst.v
theories/FullRank.v
theories/DescSpec.v
theories/DescProofs.v
theories/DescProps.v
theories/DescLiq.v
theories/OrdLimits.v
theories/SymPath.v
theories/OrdModel.v
theories/OrdData.v
theories/OrdCheck.v
theories/OrdSpec.v
theories/OrdProofs.v
theories/OrdOut.v
theories/OrdProps.v
theories/OrdCase.v
theories/OrdActModel.v
theories/OrdActData.v
theories/OrdActCheck.v
theories/OrdActSpec.v
theories/OrdPath.v
theories/OrdActProps.v
theories/OrdActCase.v
theories/SatModel.v
theories/SatProps.v
theories/LiquidusModel.v
theories/LiquidusProofs.v
theories/LiquidusProps.v
theories/WetModel.v
theories/WetProps.v
theories/CoexModel.v
theories/CoexSpec.v
theories/CoexFrame.v
theories/CoexProofs.v
theories/CoexProps.v
theories/CoexMore.v
theories/CoexGrad.v
theories/CoexCase.v
theories/CoexSolModel.v
theories/CoexSolSpec.v
theories/CoexSolProofs.v
theories/CoexSolProps.v
theories/CoexSolMore.v
theories/CoexSolDet.v
theories/CoexSolCase.v
theories/CoexSolPhase.v
theories/VinetNewton.v
theories/VinetSolve.v
theories/VinetProps.v
theories/EstModel.v
theories/EstProofs.v
theories/EstProps.v
theories/EstIdeal.v
theories/EstNull.v
theories/EstPhase.v
theories/EstFun.v
theories/EstCase.v
theories/OxyModel.v
theories/OxySpec.v
theories/OxyBase.v
theories/OxyFill.v
theories/OxyProofs.v
theories/OxyProps.v
theories/OxyCase.v
theories/CoexSolKept.v
theories/CoexKept.v
theories/OxyLiq.v
theories/SubModel.v
theories/SubSpec.v
theories/SubProofs.v
theories/SubRun.v
theories/SubProps.v
theories/SubCase.v
theories/QryModel.v
theories/QrySpec.v
theories/QryProps.v
theories/ElmModel.v
theories/ElmData.v
theories/ElmProps.v
theories/ElmTable.v
theories/QryTable.v
theories/QryLiquid.v
theories/QryEos.v
theories/QryPyr.v
theories/QryOrd.v
theories/DynModel.v
theories/DynProps.v
theories/DynMem.v
theories/DynWeights.v
theories/NameModel.v
theories/NameSpec.v
theories/NameProps.v
theories/GrdModel.v
theories/GrdProps.v
theories/AbsModel.v
theories/AbsSpec.v
theories/AbsProps.v
theories/AbsCase.v
theories/IfaceModel.v
theories/IfaceProps.v
theories/IfaceCase.v
theories/AsmModel.v
theories/AsmProps.v
theories/AsmCase.v
theories/LibFracModel.v
theories/LibFracProps.v
theories/LibEnd.v
theories/PlotModel.v
theories/PlotProps.v
theories/MenuModel.v
theories/MenuProps.v
theories/FileLabel.v
theories/DlgModel.v
theories/DlgProps.v
theories/DlgCase.v
theories/WinModel.v
theories/WinProps.v
theories/PropArrModel.v
theories/PropArrProps.v
theories/LiqCallModel.v
theories/LiqCallProps.v
