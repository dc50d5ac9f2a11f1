-Q theories Verif
theories/PyBase.v
theories/PyLemmas.v
theories/B2Model.v
theories/B2Spec.v
theories/B2Proofs.v
theories/B2Props.v
theories/WWModel.v
theories/WWSpec.v
theories/WWProofs.v
theories/WWProofs2.v
theories/WWProofs3.v
theories/WWReal.v
theories/WWProofs4.v
theories/WWProps.v
theories/PyStr.v
theories/PyStrLemmas.v
theories/WWTextModel.v
theories/WWTextSpec.v
theories/PyFmtLemmas.v
theories/WWTextProofs.v
theories/WWTextProofs2.v
theories/WWTextProps.v
theories/PyText.v
theories/D1SModel.v
theories/D1SSpec.v
theories/D1SProofs.v
theories/D1SProofs2.v
theories/D1SProps.v
theories/WWProofs5.v
theories/WWProps2.v
theories/CliModel.v
theories/CliSpec.v
theories/CliProofs.v
theories/CliProps.v
theories/CliProofs2.v
theories/CliProps2.v
theories/LibModel.v
theories/IsoData.v
theories/LibSpec.v
theories/LibProofs.v
theories/LibProofs2.v
theories/LibProofs3.v
theories/LibProps.v
theories/MatModel.v
theories/MatSpec.v
theories/MatProofs.v
theories/MatProofs2.v
theories/MatProofs3.v
theories/MatProofs4.v
theories/MatProps.v
theories/MatProps2.v
theories/InpModel.v
theories/InpSpec.v
theories/InpExamples.v
theories/InpProofs.v
theories/InpProofs2.v
theories/InpProofs3.v
theories/InpProofs4.v
theories/InpProofs5.v
theories/InpProofs6.v
theories/InpProps.v
theories/InpGeomSpec.v
theories/InpUnionModel.v
theories/InpGeomProofs.v
theories/InpGeomProofs2.v
theories/InpGeomProofs3.v
theories/InpMatProofs.v
theories/InpGeomProps.v
theories/DataModel.v
theories/DataSpec.v
theories/DataProofs.v
theories/DataProofs2.v
theories/DataProps.v
theories/PathsModel.v
theories/PathsSpec.v
theories/PathsProofs.v
theories/PathsProps.v
theories/PathsProps2.v
theories/RssaModel.v
theories/RssaSpec.v
theories/RssaProofs.v
theories/RssaProofs2.v
theories/RssaProps.v
theories/RssaProofs3.v
theories/RssaProps2.v
theories/MeshModel.v
theories/MeshSpec.v
theories/MeshProofs.v
theories/MeshProofs2.v
theories/MeshProps.v
theories/MeshCuvModel.v
theories/MeshCuvSpec.v
theories/MeshCuvProofs.v
theories/MeshCuvProofs2.v
theories/MeshCdgsProofs.v
theories/MeshCuvProps.v
theories/FmeshModel.v
theories/FmeshSpec.v
theories/FmeshProofs.v
theories/FmeshProofs2.v
theories/FmeshProofs3.v
theories/FmeshProofs4.v
theories/FmeshProofs5.v
theories/FmeshProofs6.v
theories/FmeshProps.v
theories/CuvErrModel.v
theories/CuvErrSpec.v
theories/CuvErrProofs.v
theories/CuvErrProps.v
theories/PathLibModel.v
theories/PathLibSpec.v
theories/PathLibProofs.v
theories/PathLibProps.v
theories/EliteModel.v
theories/EliteSpec.v
theories/EliteProofs.v
theories/EliteProofs2.v
theories/EliteProofs3.v
theories/EliteProofs4.v
theories/EliteProofs5.v
theories/EliteProps.v
theories/MctalModel.v
theories/MctalSpec.v
theories/MctalProofs.v
theories/MctalProofs2.v
theories/MctalProofs3.v
theories/MctalProofs4.v
theories/MctalProofs5.v
theories/MctalProofs6.v
theories/MctalProofs7.v
theories/MctalProofs8.v
theories/MctalProofs9.v
theories/MctalProps.v
theories/MiModel.v
theories/MiSpec.v
theories/MiProofs.v
theories/MiProofs2.v
theories/MiProps.v
theories/OutModel.v
theories/OutSpec.v
theories/OutProofs.v
theories/OutProofs2.v
theories/OutProofs3.v
theories/OutProofs4.v
theories/OutProofs5.v
theories/OutProps.v
theories/OutSpec2.v
theories/OutProofs6.v
theories/OutProps2.v
theories/FispModel.v
theories/FispSpec.v
theories/FispProofs.v
theories/FispProofs2.v
theories/FispProps.v
theories/EeoutModel.v
theories/EeoutSpec.v
theories/EeoutProofs.v
theories/EeoutProofs2.v
theories/EeoutProofs3.v
theories/EeoutProofs4.v
theories/EeoutProofs5.v
theories/EeoutProps.v
theories/XsModel.v
theories/XsSpec.v
theories/XsProofs.v
theories/XsProofs2.v
theories/XsProps.v
theories/XsProofs3.v
theories/XsProps2.v
theories/AceModel.v
theories/AceSpec.v
theories/AceProofs.v
theories/AceProps.v
theories/PlotModel.v
theories/PlotSpec.v
theories/PlotProofs.v
theories/PlotProps.v
theories/PySci.v
theories/PySciLemmas.v
theories/MatTextModel.v
theories/MatTextSpec.v
theories/MatTextProofs.v
theories/MatTextProofs2.v
theories/MatTextProofs3.v
theories/MatTextProps.v
theories/MatInModel.v
theories/MatInSpec.v
theories/MatInProofs.v
theories/MatInProps.v
theories/InpWriteModel.v
theories/InpWriteSpec.v
theories/InpWriteProofs.v
theories/InpWriteProps.v
theories/TalSumModel.v
theories/TalSumSpec.v
theories/TalSumProofs.v
theories/TalSumProps.v
theories/TalHistModel.v
theories/TalHistSpec.v
theories/TalHistProofs.v
theories/TalHistProps.v
theories/TranModel.v
theories/TranSpec.v
theories/TranProofs.v
theories/TranProps.v
theories/LookModel.v
theories/LookSpec.v
theories/LookProofs.v
theories/LookProps.v
theories/HashModel.v
theories/HashSpec.v
theories/HashProofs.v
theories/HashProps.v
theories/MatInfoModel.v
theories/MatInfoSpec.v
theories/MatInfoProofs.v
theories/MatInfoProofs2.v
theories/MatInfoProofs3.v
theories/MatInfoProofs4.v
theories/MatInfoProofs5.v
theories/MatInfoProofs6.v
theories/MatInfoProofs7.v
theories/MatInfoProofs8.v
theories/MatInfoProps.v
theories/TrsfModel.v
theories/TrsfSpec.v
theories/TrsfProofs.v
theories/TrsfProofs2.v
theories/TrsfProps.v
theories/GvrModel.v
theories/GvrSpec.v
theories/GvrProofs.v
theories/GvrProofs2.v
theories/GvrProps.v
theories/GridModel.v
theories/GridSpec.v
theories/GridProofs.v
theories/GridProofs2.v
theories/GridProps.v
theories/XmlModel.v
theories/XmlSpec.v
theories/XmlProofs.v
theories/XmlProofs2.v
theories/XmlProps.v
theories/EliteRunModel.v
theories/EliteRunSpec.v
theories/EliteRunProofs.v
theories/EliteRunProofs2.v
theories/EliteRunProofs3.v
theories/EliteRunProofs4.v
theories/EliteRunProps.v
theories/WWFileModel.v
theories/WWFileSpec.v
theories/WWFileProofs.v
theories/WWFileProofs2.v
theories/WWFileProps.v
theories/EqModel.v
theories/EqSpec.v
theories/EqProofs.v
theories/EqProps.v
theories/RssaInfoModel.v
theories/RssaInfoSpec.v
theories/RssaInfoProofs.v
theories/RssaInfoProofs2.v
theories/RssaInfoProps.v
theories/FmInfoModel.v
theories/FmInfoSpec.v
theories/FmInfoProps.v
theories/NucXsModel.v
theories/NucXsSpec.v
theories/NucXsProofs.v
theories/NucXsProofs2.v
theories/NucXsProps.v
theories/UniModel.v
theories/UniSpec.v
theories/UniProofs.v
theories/UniProofs2.v
theories/UniProps.v
theories/XsMatModel.v
theories/XsMatSpec.v
theories/XsMatProofs.v
theories/XsMatProps.v
theories/MatDensModel.v
theories/MatDensProps.v
theories/CommModel.v
theories/CommSpec.v
theories/CommProps.v
theories/RssaPlotModel.v
theories/RssaPlotSpec.v
theories/RssaPlotProofs.v
theories/RssaPlotProps.v
theories/FillModel.v
theories/FillSpec.v
theories/FillProofs.v
theories/FillProps.v
theories/VtkModel.v
theories/VtkProofs.v
theories/VtkProps.v
theories/HelpSpec.v
theories/HelpProofs.v
theories/HelpProps.v
theories/LifeSpec.v
theories/LifeProofs.v
theories/LifeExt.v
theories/LifeProofs2.v
theories/LifeProps.v
theories/CardsModel.v
theories/CardsSpec.v
theories/CardsProofs.v
theories/CardsProps.v
theories/FlowSpec.v
theories/FlowProofs.v
theories/FlowProps.v
theories/FlowProofs2.v
theories/FlowProps2.v
theories/MatLifeModel.v
theories/MatLifeSpec.v
theories/MatLifeProofs.v
theories/MatLifeProps.v
theories/RssaAllSpec.v
theories/RssaAllProofs.v
theories/RssaAllProps.v
theories/GvrFileModel.v
theories/GvrFileSpec.v
theories/GvrFileProofs.v
theories/GvrFileProps.v
theories/MctalAllSpec.v
theories/MctalAllProofs.v
theories/MctalAllProps.v
theories/MeshAllSpec.v
theories/MeshAllProofs.v
theories/MeshAllProps.v
