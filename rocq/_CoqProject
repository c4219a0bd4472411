-Q theories Verif
theories/Base.v
theories/MapSum.v
theories/Ledger.v
theories/AmmModel.v
theories/AmmSpec.v
theories/AmmProofs.v
theories/AmmInv.v
theories/AmmProofs2.v
theories/AmmProofs3.v
theories/AmmProofs4.v
theories/AmmEx.v
theories/AmmProps.v
theories/AmmProofs5.v
theories/AmmProps2.v
theories/RouterModel.v
theories/RouterSpec.v
theories/RouterProofs.v
theories/RouterProofs2.v
theories/RouterProofs3.v
theories/RouterProps.v
theories/StreamModel.v
theories/StreamSpec.v
theories/StreamProofs.v
theories/StreamProofs2.v
theories/StreamProofs3.v
theories/StreamProofs4.v
theories/StreamProps.v
theories/FarmModel.v
theories/FarmSpec.v
theories/FarmProofs.v
theories/FarmProofs2.v
theories/FarmProofs3.v
theories/FarmProps.v
theories/LoansModel.v
theories/LoansSpec.v
theories/LoansProofs.v
theories/LoansProofs2.v
theories/LoansProofs3.v
theories/LoansProofs4.v
theories/LoansProofs5.v
theories/LoansProofs6.v
theories/LoansProofs7.v
theories/LoansProofs8.v
theories/LoansProofs9.v
theories/LoansProofs10.v
theories/LoansProofs11.v
theories/LoansProofs12.v
theories/LoansEx.v
theories/LoansProps.v
theories/AdminSpec.v
theories/AdminProofs.v
theories/AdminProps.v
theories/LsModel.v
theories/LsSpec.v
theories/LsProofs.v
theories/LsDist.v
theories/LsProofs2.v
theories/LsProofs3.v
theories/LsProofs4.v
theories/LsProofs5.v
theories/LsProofs6.v
theories/LsProofs7.v
theories/LsEx.v
theories/LsProofs8.v
theories/LsProofs9.v
theories/LsProofs10.v
theories/LsProps.v
theories/LsProps2.v
theories/LsProps3.v
theories/LsProps4.v
theories/BridgeModel.v
theories/BridgeSpec.v
theories/BridgeProofs.v
theories/BridgeProofs2.v
theories/BridgeProofs3.v
theories/BridgeProofs4.v
theories/BridgeProofs5.v
theories/BridgeProps.v
theories/BridgeProps2.v
theories/CrowdModel.v
theories/CrowdSpec.v
theories/CrowdProofs.v
theories/CrowdProofs2.v
theories/CrowdProofs3.v
theories/CrowdProofs4.v
theories/CrowdProofs5.v
theories/CrowdProofs6.v
theories/CrowdProofs7.v
theories/CrowdProofs8.v
theories/CrowdProofs9.v
theories/CrowdProofs10.v
theories/CrowdProofs11.v
theories/CrowdEx.v
theories/CrowdProps.v
theories/CrowdProps2.v
theories/PriceModel.v
theories/PriceSpec.v
theories/PriceProofs.v
theories/PriceProps.v
theories/GateModel.v
theories/GateSpec.v
theories/GateProofs.v
theories/GateProps.v
theories/RegModel.v
theories/RegSpec.v
theories/RegProofs.v
theories/RegProps.v
theories/StableModel.v
theories/StableSpec.v
theories/StableProofs.v
theories/StableProofs2.v
theories/StableEx.v
theories/StableProofs3.v
theories/StableProps.v
theories/ErcModel.v
theories/ErcSpec.v
theories/ErcProofs.v
theories/ErcProofs2.v
theories/ErcProofs3.v
theories/ErcProofs4.v
theories/ErcProofs5.v
theories/ErcEx.v
theories/ErcProps.v
theories/XcmModel.v
theories/XcmSpec.v
theories/XcmProofs.v
theories/XcmProofs2.v
theories/XcmProps.v
theories/XhModel.v
theories/XhSpec.v
theories/XhProofs.v
theories/XhProofs2.v
theories/XhProps.v
theories/AuthModel.v
theories/AuthSpec.v
theories/AuthProofs.v
theories/AuthProofs2.v
theories/AuthProps.v
theories/LoansSpec2.v
theories/LoansProofs13.v
theories/LoansProofs14.v
theories/LoansProofs15.v
theories/LoansProofs16.v
theories/LoansProofs17.v
theories/LoansProofs18.v
theories/LoansProofs19.v
theories/LoansProofs20.v
theories/LoansProofs21.v
theories/LoansProps2.v
theories/MigModel.v
theories/MigSpec.v
theories/MigProofs.v
theories/MigProps.v
theories/UpModel.v
theories/UpSpec.v
theories/UpProofs.v
theories/UpProps.v
theories/RouterProofs4.v
theories/RouterProps2.v
theories/LoansProofs22.v
theories/LoansProps3.v
theories/LoansSpec3.v
theories/LoansProofs23.v
theories/LoansProofs24.v
theories/LoansProofs25.v
theories/LoansProps4.v
theories/LoansProps5.v
theories/LoansProofs26.v
theories/LoansProps6.v
theories/LoansProps7.v
