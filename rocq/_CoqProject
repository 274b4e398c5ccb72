-Q theories Verif

theories/QcBase.v
theories/PyBase.v
theories/StrBase.v
theories/NumFmt.v
theories/OtfsModel.v
theories/OtfsSpec.v
theories/OtfsProof.v
theories/OtfsTheorems.v
theories/DddaModel.v
theories/DddaSpec.v
theories/DddaProof.v
theories/DddaCppProof.v
theories/DddaTheorems.v
theories/QcLra.v
theories/SortBase.v
theories/DictBase.v
theories/AutocorrModel.v
theories/AutocorrSpec.v
theories/AutocorrProof.v
theories/AutocorrTheorems.v
theories/Data2DModel.v
theories/Data2DSpec.v
theories/Data2DProof.v
theories/Data2DTheorems.v
theories/FlowModel.v
theories/FlowSpec.v
theories/FlowProof.v
theories/FlowTheorems.v
theories/MeasModel.v
theories/MeasSpec.v
theories/MeasProof.v
theories/MeasTheorems.v
theories/ConfModel.v
theories/ConfSpec.v
theories/ConfProof.v
theories/ConfTreeProof.v
theories/ConfCanonProof.v
theories/ConfTheorems.v
theories/FsBase.v
theories/RunsModel.v
theories/RunsSpec.v
theories/RunsProof.v
theories/RunsJobProof.v
theories/RunsStateProof.v
theories/RunsNodesProof.v
theories/RunsCacheProof.v
theories/RunsTheorems.v
theories/VecBase.v
theories/VecModel.v
theories/VecSpec.v
theories/VecProof.v
theories/VecTheorems.v
theories/PartModel.v
theories/PartSpec.v
theories/PartProof.v
theories/PartShapeProof.v
theories/PartTheorems.v
theories/EckModel.v
theories/EckSpec.v
theories/EckProof.v
theories/EckTheorems.v
theories/SimModel.v
theories/SimSpec.v
theories/SimProof.v
theories/SimTheorems.v
theories/CuModel.v
theories/CuSpec.v
theories/CuProof.v
theories/CuBitsProof.v
theories/CuLcgProof.v
theories/CuTheorems.v
theories/ConcModel.v
theories/ConcSpec.v
theories/ConcProof.v
theories/ConcTheorems.v
theories/PotModel.v
theories/PotSpec.v
theories/PotProof.v
theories/PotTheorems.v
theories/MdModel.v
theories/MdSpec.v
theories/MdProof.v
theories/MdTheorems.v
theories/StarModel.v
theories/StarSpec.v
theories/StarProof.v
theories/StarMdProof.v
theories/StarPyProof.v
theories/StarClusterProof.v
theories/StarTheorems.v
theories/VtfModel.v
theories/VtfSpec.v
theories/VtfTextProof.v
theories/VtfRangeProof.v
theories/VtfLineProof.v
theories/VtfProof.v
theories/VtfFileProof.v
theories/VtfStepProof.v
theories/VtfTheorems.v
theories/VtfPyModel.v
theories/VtfPySpec.v
theories/VtfPyProof.v
theories/VtfPyTheorems.v
theories/VtfStarModel.v
theories/VtfStarProof.v
theories/VtfStarTheorems.v
theories/MsdModel.v
theories/MsdSpec.v
theories/LagProof.v
theories/MsdProof.v
theories/MsdTheorems.v
theories/NmModel.v
theories/NmSpec.v
theories/NmProof.v
theories/NmRunProof.v
theories/NmModeProof.v
theories/NmOverflowProof.v
theories/NmTheorems.v
theories/ResModel.v
theories/ResSpec.v
theories/ResProof.v
theories/MpiProof.v
theories/ResTheorems.v
theories/MainModel.v
theories/MainSpec.v
theories/MainProof.v
theories/MainTheorems.v
theories/BondModel.v
theories/ChainModel.v
theories/BondSpec.v
theories/BondProof.v
theories/ChainProof.v
theories/BondTheorems.v
theories/EmpModel.v
theories/EmpSpec.v
theories/EmpProof.v
theories/EmpTheorems.v
theories/FitModel.v
theories/FitSpec.v
theories/FitProof.v
theories/FitTheorems.v
theories/ConsModel.v
theories/ConsSpec.v
theories/ConsTheorems.v
theories/DigModel.v
theories/DigSpec.v
theories/DigProof.v
theories/DigRoundProof.v
theories/DigTextProof.v
theories/DigTheorems.v
theories/FourModel.v
theories/FourSpec.v
theories/FourProof.v
theories/FourTheorems.v
theories/TvcModel.v
theories/TvcSpec.v
theories/TvcTextProof.v
theories/TvcProof.v
theories/TvcRunProof.v
theories/TvcPyProof.v
theories/TvcTheorems.v
theories/CfgModel.v
theories/CfgSpec.v
theories/CfgProof.v
theories/CfgSetProof.v
theories/CfgReadProof.v
theories/CfgNameProof.v
theories/CfgTheorems.v
theories/CfgSimModel.v
theories/CfgSimSpec.v
theories/CfgSimProof.v
theories/CfgSimTheorems.v
theories/InitModel.v
theories/InitSpec.v
theories/InitProof.v
theories/InitTheorems.v
theories/SpaModel.v
theories/SpaSpec.v
theories/SpaProof.v
theories/SpaTheorems.v
theories/GamModel.v
theories/GamSpec.v
theories/GamCalc.v
theories/GamProof.v
theories/GamTheorems.v
theories/AqModel.v
theories/AqSpec.v
theories/AqProof.v
theories/AqTheorems.v
theories/DumModel.v
theories/DumSpec.v
theories/DumProof.v
theories/DumTheorems.v
theories/RelModel.v
theories/RelSpec.v
theories/RelProof.v
theories/RelTheorems.v
theories/PtsModel.v
theories/PtsSpec.v
theories/PtsProof.v
theories/PtsTheorems.v
theories/InsModel.v
theories/InsSpec.v
theories/InsProof.v
theories/InsCfgProof.v
theories/InsTheorems.v
theories/VacModel.v
theories/VacSpec.v
theories/VacProof.v
theories/VacTextProof.v
theories/VacTheorems.v
theories/StpModel.v
theories/StpSpec.v
theories/StpProof.v
theories/StpStateProof.v
theories/StpTheorems.v
theories/RsvModel.v
theories/RsvSpec.v
theories/RsvProof.v
theories/RsvTheorems.v
theories/AnaModel.v
theories/AnaSpec.v
theories/AnaProof.v
theories/AnaRunProof.v
theories/AnaTheorems.v
theories/AnaRunTheorems.v
theories/PloModel.v
theories/PloSpec.v
theories/PloProof.v
theories/PloLineProof.v
theories/PloListProof.v
theories/PloTheorems.v
theories/PloListTheorems.v
theories/MgrModel.v
theories/MgrSpec.v
theories/MgrProof.v
theories/MgrTheorems.v
theories/FlpModel.v
theories/FlpSpec.v
theories/FlpProof.v
theories/FlpTheorems.v
theories/AxsModel.v
theories/AxsSpec.v
theories/AxsProof.v
theories/AxsTheorems.v
theories/GnuModel.v
theories/GnuSpec.v
theories/GnuProof.v
theories/GnuTheorems.v
theories/CddModel.v
theories/CddSpec.v
theories/CddProof.v
theories/CddTheorems.v
theories/DviModel.v
theories/DviSpec.v
theories/DviProof.v
theories/DviTheorems.v
theories/PrmModel.v
theories/PrmSpec.v
theories/PrmProof.v
theories/PrmTheorems.v
theories/CpyModel.v
theories/CpySpec.v
theories/CpyProof.v
theories/CpyTheorems.v
theories/PciModel.v
theories/PciSpec.v
theories/PciProof.v
theories/PciTheorems.v
theories/SgpModel.v
theories/SgpSpec.v
theories/SgpProof.v
theories/SgpTheorems.v
theories/WvkModel.v
theories/WvkSpec.v
theories/WvkProof.v
theories/WvkTheorems.v
theories/SymModel.v
theories/SymSpec.v
theories/SymProof.v
theories/SymTheorems.v
theories/VtyModel.v
theories/VtySpec.v
theories/VtyProof.v
theories/VtyTheorems.v
theories/NmsModel.v
theories/NmsSpec.v
theories/NmsProof.v
theories/NmsTheorems.v
theories/PdnModel.v
theories/PdnSpec.v
theories/PdnProof.v
theories/PdnTheorems.v
theories/SpiModel.v
theories/SpiSpec.v
theories/SpiProof.v
theories/SpiTheorems.v
