-Q theories Verif
theories/Base.v
theories/NVModel.v
theories/NVSpec.v
theories/NVProofs.v
theories/NVHeapModel.v
theories/NVHeapProofs.v
theories/NVProps.v
theories/UnitsModel.v
theories/UnitsProofs.v
theories/UnitsProps.v
theories/TypesModel.v
theories/TypesSpec.v
theories/TypesProofs.v
theories/TypesProps.v
theories/CsvModel.v
theories/CsvProofs.v
theories/CsvRoundTrip.v
theories/CsvProps.v
theories/MissionModel.v
theories/MissionProofs.v
theories/MissionProps.v
theories/Calc.v
theories/MathModel.v
theories/MathProofs.v
theories/MathProps.v
theories/MergeModel.v
theories/MergeProofs.v
theories/MergeProps.v
theories/StrModel.v
theories/StrProofs.v
theories/StrProps.v
theories/PreModel.v
theories/PreProofs.v
theories/PreProps.v
theories/DeckModel.v
theories/DeckProofs.v
theories/DeckProps.v
theories/LinkModel.v
theories/LinkProofs.v
theories/LinkProps.v
theories/ObjModel.v
theories/ObjProofs.v
theories/ObjProps.v
theories/PayModel.v
theories/PayProofs.v
theories/PayProps.v
theories/SaveModel.v
theories/SaveProofs.v
theories/SaveProps.v
theories/Comp.v
theories/Vec.v
theories/MassDistModel.v
theories/MassDistProofs.v
theories/MassSysModel.v
theories/MassSysProps.v
theories/MassLoadModel.v
theories/MassLoadProps.v
theories/MassStructModel.v
theories/MassStructProps.v
theories/MassPropModel.v
theories/MassPropProps.v
theories/MassSumModel.v
theories/MassSumProps.v
theories/MassGroupModel.v
theories/MassGroupProps.v
theories/CompMore.v
theories/EomEnergyModel.v
theories/EomEnergyProps.v
theories/EomTwoModel.v
theories/EomTwoProps.v
theories/EomCondModel.v
theories/EomCondProps.v
theories/EomLandModel.v
theories/EomLandProps.v
theories/Arr.v
theories/CruiseModel.v
theories/CruiseProps.v
theories/EngModel.v
theories/EngProps.v
theories/AtmModel.v
theories/AtmData.v
theories/AtmProps.v
theories/AtmDataProps.v
theories/GeoModel.v
theories/GeoProps.v
theories/CompFun.v
theories/GaspSumModel.v
theories/GaspGroupModel.v
theories/GaspSumProps.v
theories/GaspSysModel.v
theories/GaspSysProps.v
theories/GaspFurnProps.v
theories/GaspStructModel.v
theories/GaspStructProps.v
theories/GaspTailProps.v
theories/HamData.v
theories/HamModel.v
theories/HamProofs.v
theories/HamProps.v
theories/HamMainProps.v
theories/ForModel.v
theories/ForProofs.v
theories/ForProps.v
theories/ForStoreProps.v
theories/FAeroModel.v
theories/FAeroProofs.v
theories/FAeroProps.v
theories/FAeroForwardProps.v
theories/FAeroGroundProps.v
theories/FAeroTableProps.v
theories/FAeroLddProps.v
theories/FAeroSkinProps.v
theories/GGeomModel.v
theories/GGeomProofs.v
theories/GGeomProps.v
theories/GGeomBodyProps.v
theories/GGeomVolProps.v
theories/GGeomJoinProps.v
theories/GGeomBwbProps.v
theories/GGeomBwbFoldProps.v
theories/GLoadModel.v
theories/GLoadProps.v
theories/GLoadFuelProps.v
theories/GaspValueProps.v
theories/GAeroModel.v
theories/GAeroProps.v
theories/GLoadFactorProps.v
theories/GLoadBwbProps.v
