(** The main network's genesis files of the test suite (test/data/genesis/), as JSON values.  The Byron file is cut to its first entries, the Alonzo cost model to its first 20. *)
From Coq Require Import String SpecFloat.
From Verif Require Import Base Spec_Genesis.
Local Open Scope list_scope.
Definition shelley_mainnet : json :=
  (JObj [((str "activeSlotsCoeff"), (JFloat (S754_finite false 7205759403792794 (-57))));
    ((str "protocolParams"), (JObj [((str "protocolVersion"), (JObj [((str "minor"), (JUint 0));
    ((str "major"), (JUint 2))]));
    ((str "decentralisationParam"), (JUint 1));
    ((str "eMax"), (JUint 18));
    ((str "extraEntropy"), (JObj [((str "tag"), (JStr (str "NeutralNonce")))]));
    ((str "maxTxSize"), (JUint 16384));
    ((str "maxBlockBodySize"), (JUint 65536));
    ((str "maxBlockHeaderSize"), (JUint 1100));
    ((str "minFeeA"), (JUint 44));
    ((str "minFeeB"), (JUint 155381));
    ((str "minUTxOValue"), (JUint 1000000));
    ((str "poolDeposit"), (JUint 500000000));
    ((str "minPoolCost"), (JUint 340000000));
    ((str "keyDeposit"), (JUint 2000000));
    ((str "nOpt"), (JUint 150));
    ((str "rho"), (JFloat (S754_finite false 6917529027641082 (-61))));
    ((str "tau"), (JFloat (S754_finite false 7205759403792794 (-55))));
    ((str "a0"), (JFloat (S754_finite false 5404319552844595 (-54))))]));
    ((str "genDelegs"), (JObj [((str "ad5463153dc3d24b9ff133e46136028bdc1edbb897f5a7cf1b37950c"), (JObj [((str "delegate"), (JStr (str "d9e5c76ad5ee778960804094a389f0b546b5c2b140a62f8ec43ea54d")));
    ((str "vrf"), (JStr (str "64fa87e8b29a5b7bfbd6795677e3e878c505bc4a3649485d366b50abadec92d7")))]));
    ((str "b9547b8a57656539a8d9bc42c008e38d9c8bd9c8adbb1e73ad529497"), (JObj [((str "delegate"), (JStr (str "855d6fc1e54274e331e34478eeac8d060b0b90c1f9e8a2b01167c048")));
    ((str "vrf"), (JStr (str "66d5167a1f426bd1adcc8bbf4b88c280d38c148d135cb41e3f5a39f948ad7fcc")))]));
    ((str "60baee25cbc90047e83fd01e1e57dc0b06d3d0cb150d0ab40bbfead1"), (JObj [((str "delegate"), (JStr (str "7f72a1826ae3b279782ab2bc582d0d2958de65bd86b2c4f82d8ba956")));
    ((str "vrf"), (JStr (str "c0546d9aa5740afd569d3c2d9c412595cd60822bb6d9a4e8ce6c43d12bd0f674")))]));
    ((str "f7b341c14cd58fca4195a9b278cce1ef402dc0e06deb77e543cd1757"), (JObj [((str "delegate"), (JStr (str "69ae12f9e45c0c9122356c8e624b1fbbed6c22a2e3b4358cf0cb5011")));
    ((str "vrf"), (JStr (str "6394a632af51a32768a6f12dac3485d9c0712d0b54e3f389f355385762a478f2")))]));
    ((str "162f94554ac8c225383a2248c245659eda870eaa82d0ef25fc7dcd82"), (JObj [((str "delegate"), (JStr (str "4485708022839a7b9b8b639a939c85ec0ed6999b5b6dc651b03c43f6")));
    ((str "vrf"), (JStr (str "aba81e764b71006c515986bf7b37a72fbb5554f78e6775f08e384dbd572a4b32")))]));
    ((str "2075a095b3c844a29c24317a94a643ab8e22d54a3a3a72a420260af6"), (JObj [((str "delegate"), (JStr (str "6535db26347283990a252313a7903a45e3526ec25ddba381c071b25b")));
    ((str "vrf"), (JStr (str "fcaca997b8105bd860876348fc2c6e68b13607f9bbd23515cd2193b555d267af")))]));
    ((str "268cfc0b89e910ead22e0ade91493d8212f53f3e2164b2e4bef0819b"), (JObj [((str "delegate"), (JStr (str "1d4f2e1fda43070d71bb22a5522f86943c7c18aeb4fa47a362c27e23")));
    ((str "vrf"), (JStr (str "63ef48bc5355f3e7973100c371d6a095251c80ceb40559f4750aa7014a6fb6db")))]))]));
    ((str "updateQuorum"), (JUint 5));
    ((str "networkId"), (JStr (str "Mainnet")));
    ((str "initialFunds"), (JObj []));
    ((str "maxLovelaceSupply"), (JUint 45000000000000000));
    ((str "networkMagic"), (JUint 764824073));
    ((str "epochLength"), (JUint 432000));
    ((str "systemStart"), (JStr (str "2017-09-23T21:44:51Z")));
    ((str "slotsPerKESPeriod"), (JUint 129600));
    ((str "slotLength"), (JUint 1));
    ((str "maxKESEvolutions"), (JUint 62));
    ((str "securityParam"), (JUint 2160))]).
Definition alonzo_mainnet : json :=
  (JObj [((str "lovelacePerUTxOWord"), (JUint 34482));
    ((str "executionPrices"), (JObj [((str "prSteps"), (JObj [((str "numerator"), (JUint 721));
    ((str "denominator"), (JUint 10000000))]));
    ((str "prMem"), (JObj [((str "numerator"), (JUint 577));
    ((str "denominator"), (JUint 10000))]))]));
    ((str "maxTxExUnits"), (JObj [((str "exUnitsMem"), (JUint 10000000));
    ((str "exUnitsSteps"), (JUint 10000000000))]));
    ((str "maxBlockExUnits"), (JObj [((str "exUnitsMem"), (JUint 50000000));
    ((str "exUnitsSteps"), (JUint 40000000000))]));
    ((str "maxValueSize"), (JUint 5000));
    ((str "collateralPercentage"), (JUint 150));
    ((str "maxCollateralInputs"), (JUint 3));
    ((str "costModels"), (JObj [((str "PlutusV1"), (JObj [((str "sha2_256-memory-arguments"), (JUint 4));
    ((str "equalsString-cpu-arguments-constant"), (JUint 1000));
    ((str "cekDelayCost-exBudgetMemory"), (JUint 100));
    ((str "lessThanEqualsByteString-cpu-arguments-intercept"), (JUint 103599));
    ((str "divideInteger-memory-arguments-minimum"), (JUint 1));
    ((str "appendByteString-cpu-arguments-slope"), (JUint 621));
    ((str "blake2b-cpu-arguments-slope"), (JUint 29175));
    ((str "iData-cpu-arguments"), (JUint 150000));
    ((str "encodeUtf8-cpu-arguments-slope"), (JUint 1000));
    ((str "unBData-cpu-arguments"), (JUint 150000));
    ((str "multiplyInteger-cpu-arguments-intercept"), (JUint 61516));
    ((str "cekConstCost-exBudgetMemory"), (JUint 100));
    ((str "nullList-cpu-arguments"), (JUint 150000));
    ((str "equalsString-cpu-arguments-intercept"), (JUint 150000));
    ((str "trace-cpu-arguments"), (JUint 150000));
    ((str "mkNilData-memory-arguments"), (JUint 32));
    ((str "lengthOfByteString-cpu-arguments"), (JUint 150000));
    ((str "cekBuiltinCost-exBudgetCPU"), (JUint 29773));
    ((str "bData-cpu-arguments"), (JUint 150000));
    ((str "subtractInteger-cpu-arguments-slope"), (JUint 0))]))]))]).
Definition conway_mainnet : json :=
  (JObj [((str "poolVotingThresholds"), (JObj [((str "committeeNormal"), (JFloat (S754_finite false 4593671619917906 (-53))));
    ((str "committeeNoConfidence"), (JFloat (S754_finite false 4593671619917906 (-53))));
    ((str "hardForkInitiation"), (JFloat (S754_finite false 4593671619917906 (-53))));
    ((str "motionNoConfidence"), (JFloat (S754_finite false 4593671619917906 (-53))));
    ((str "ppSecurityGroup"), (JFloat (S754_finite false 4593671619917906 (-53))))]));
    ((str "dRepVotingThresholds"), (JObj [((str "motionNoConfidence"), (JFloat (S754_finite false 6034823500676465 (-53))));
    ((str "committeeNormal"), (JFloat (S754_finite false 6034823500676465 (-53))));
    ((str "committeeNoConfidence"), (JFloat (S754_finite false 5404319552844595 (-53))));
    ((str "updateToConstitution"), (JFloat (S754_finite false 6755399441055744 (-53))));
    ((str "hardForkInitiation"), (JFloat (S754_finite false 5404319552844595 (-53))));
    ((str "ppNetworkGroup"), (JFloat (S754_finite false 6034823500676465 (-53))));
    ((str "ppEconomicGroup"), (JFloat (S754_finite false 6034823500676465 (-53))));
    ((str "ppTechnicalGroup"), (JFloat (S754_finite false 6034823500676465 (-53))));
    ((str "ppGovGroup"), (JFloat (S754_finite false 6755399441055744 (-53))));
    ((str "treasuryWithdrawal"), (JFloat (S754_finite false 6034823500676465 (-53))))]));
    ((str "committeeMinSize"), (JUint 7));
    ((str "committeeMaxTermLength"), (JUint 146));
    ((str "govActionLifetime"), (JUint 6));
    ((str "govActionDeposit"), (JUint 100000000000));
    ((str "dRepDeposit"), (JUint 500000000));
    ((str "dRepActivity"), (JUint 20));
    ((str "minFeeRefScriptCostPerByte"), (JUint 15));
    ((str "plutusV3CostModel"), (JArr [(JUint 100788); (JUint 420); (JUint 1); (JUint 1); (JUint 1000); (JUint 173); (JUint 0); (JUint 1); (JUint 1000); (JUint 59957); (JUint 4); (JUint 1); (JUint 11183); (JUint 32); (JUint 201305); (JUint 8356); (JUint 4); (JUint 16000); (JUint 100); (JUint 16000); (JUint 100); (JUint 16000); (JUint 100); (JUint 16000); (JUint 100); (JUint 16000); (JUint 100); (JUint 16000); (JUint 100); (JUint 100); (JUint 100); (JUint 16000); (JUint 100); (JUint 94375); (JUint 32); (JUint 132994); (JUint 32); (JUint 61462); (JUint 4); (JUint 72010); (JUint 178); (JUint 0); (JUint 1); (JUint 22151); (JUint 32); (JUint 91189); (JUint 769); (JUint 4); (JUint 2); (JUint 85848); (JUint 123203); (JUint 7305); (JInt (-900)); (JUint 1716); (JUint 549); (JUint 57); (JUint 85848); (JUint 0); (JUint 1); (JUint 1); (JUint 1000); (JUint 42921); (JUint 4); (JUint 2); (JUint 24548); (JUint 29498); (JUint 38); (JUint 1); (JUint 898148); (JUint 27279); (JUint 1); (JUint 51775); (JUint 558); (JUint 1); (JUint 39184); (JUint 1000); (JUint 60594); (JUint 1); (JUint 141895); (JUint 32); (JUint 83150); (JUint 32); (JUint 15299); (JUint 32); (JUint 76049); (JUint 1); (JUint 13169); (JUint 4); (JUint 22100); (JUint 10); (JUint 28999); (JUint 74); (JUint 1); (JUint 28999); (JUint 74); (JUint 1); (JUint 43285); (JUint 552); (JUint 1); (JUint 44749); (JUint 541); (JUint 1); (JUint 33852); (JUint 32); (JUint 68246); (JUint 32); (JUint 72362); (JUint 32); (JUint 7243); (JUint 32); (JUint 7391); (JUint 32); (JUint 11546); (JUint 32); (JUint 85848); (JUint 123203); (JUint 7305); (JInt (-900)); (JUint 1716); (JUint 549); (JUint 57); (JUint 85848); (JUint 0); (JUint 1); (JUint 90434); (JUint 519); (JUint 0); (JUint 1); (JUint 74433); (JUint 32); (JUint 85848); (JUint 123203); (JUint 7305); (JInt (-900)); (JUint 1716); (JUint 549); (JUint 57); (JUint 85848); (JUint 0); (JUint 1); (JUint 1); (JUint 85848); (JUint 123203); (JUint 7305); (JInt (-900)); (JUint 1716); (JUint 549); (JUint 57); (JUint 85848); (JUint 0); (JUint 1); (JUint 955506); (JUint 213312); (JUint 0); (JUint 2); (JUint 270652); (JUint 22588); (JUint 4); (JUint 1457325); (JUint 64566); (JUint 4); (JUint 20467); (JUint 1); (JUint 4); (JUint 0); (JUint 141992); (JUint 32); (JUint 100788); (JUint 420); (JUint 1); (JUint 1); (JUint 81663); (JUint 32); (JUint 59498); (JUint 32); (JUint 20142); (JUint 32); (JUint 24588); (JUint 32); (JUint 20744); (JUint 32); (JUint 25933); (JUint 32); (JUint 24623); (JUint 32); (JUint 43053543); (JUint 10); (JUint 53384111); (JUint 14333); (JUint 10); (JUint 43574283); (JUint 26308); (JUint 10); (JUint 16000); (JUint 100); (JUint 16000); (JUint 100); (JUint 962335); (JUint 18); (JUint 2780678); (JUint 6); (JUint 442008); (JUint 1); (JUint 52538055); (JUint 3756); (JUint 18); (JUint 267929); (JUint 18); (JUint 76433006); (JUint 8868); (JUint 18); (JUint 52948122); (JUint 18); (JUint 1995836); (JUint 36); (JUint 3227919); (JUint 12); (JUint 901022); (JUint 1); (JUint 166917843); (JUint 4307); (JUint 36); (JUint 284546); (JUint 36); (JUint 158221314); (JUint 26549); (JUint 36); (JUint 74698472); (JUint 36); (JUint 333849714); (JUint 1); (JUint 254006273); (JUint 72); (JUint 2174038); (JUint 72); (JUint 2261318); (JUint 64571); (JUint 4); (JUint 207616); (JUint 8310); (JUint 4); (JUint 1293828); (JUint 28716); (JUint 63); (JUint 0); (JUint 1); (JUint 1006041); (JUint 43623); (JUint 251); (JUint 0); (JUint 1)]));
    ((str "constitution"), (JObj [((str "anchor"), (JObj [((str "dataHash"), (JStr (str "ca41a91f399259bcefe57f9858e91f6d00e1a38d6d9c63d4052914ea7bd70cb2")));
    ((str "url"), (JStr (str "ipfs://bafkreifnwj6zpu3ixa4siz2lndqybyc5wnnt3jkwyutci4e2tmbnj3xrdm")))]));
    ((str "script"), (JStr (str "fa24fb305126805cf2164c161d852a0e7330cf988f1fe558cf7d4a64")))]));
    ((str "committee"), (JObj [((str "members"), (JObj [((str "scriptHash-df0e83bde65416dade5b1f97e7f115cc1ff999550ad968850783fe50"), (JUint 580));
    ((str "scriptHash-b6012034ba0a7e4afbbf2c7a1432f8824aee5299a48e38e41a952686"), (JUint 580));
    ((str "scriptHash-ce8b37a72b178a37bbd3236daa7b2c158c9d3604e7aa667e6c6004b7"), (JUint 580));
    ((str "scriptHash-f0dc2c00d92a45521267be2d5de1c485f6f9d14466d7e16062897cf7"), (JUint 580));
    ((str "scriptHash-349e55f83e9af24813e6cb368df6a80d38951b2a334dfcdf26815558"), (JUint 580));
    ((str "scriptHash-84aebcfd3e00d0f87af918fc4b5e00135f407e379893df7e7d392c6a"), (JUint 580));
    ((str "scriptHash-e8165b3328027ee0d74b1f07298cb092fd99aa7697a1436f5997f625"), (JUint 580))]));
    ((str "threshold"), (JObj [((str "numerator"), (JUint 2));
    ((str "denominator"), (JUint 3))]))]))]).
Definition byron_mainnet : json :=
  (JObj [((str "avvmDistr"), (JObj [((str "-0BJDi-gauylk4LptQTgjMeo7kY9lTCbZv12vwOSTZk="), (JStr (str "9999300000000")));
    ((str "-0Np4pyTOWF26iXWVIvu6fhz9QupwWRS2hcCaOEYlw0="), (JStr (str "3760024000000")));
    ((str "-0_pjw54ACGTrCsH3SXreedq-Cj9pFBcZDbxT9sXaqQ="), (JStr (str "411085000000")))]));
    ((str "blockVersionData"), (JObj [((str "heavyDelThd"), (JStr (str "300000000000")));
    ((str "maxBlockSize"), (JStr (str "2000000")));
    ((str "maxHeaderSize"), (JStr (str "2000000")));
    ((str "maxProposalSize"), (JStr (str "700")));
    ((str "maxTxSize"), (JStr (str "4096")));
    ((str "mpcThd"), (JStr (str "20000000000000")));
    ((str "scriptVersion"), (JUint 0));
    ((str "slotDuration"), (JStr (str "20000")));
    ((str "softforkRule"), (JObj [((str "initThd"), (JStr (str "900000000000000")));
    ((str "minThd"), (JStr (str "600000000000000")));
    ((str "thdDecrement"), (JStr (str "50000000000000")))]));
    ((str "txFeePolicy"), (JObj [((str "multiplier"), (JStr (str "43946000000")));
    ((str "summand"), (JStr (str "155381000000000")))]));
    ((str "unlockStakeEpoch"), (JStr (str "18446744073709551615")));
    ((str "updateImplicit"), (JStr (str "10000")));
    ((str "updateProposalThd"), (JStr (str "100000000000000")));
    ((str "updateVoteThd"), (JStr (str "1000000000000")))]));
    ((str "ftsSeed"), (JStr (str "76617361206f7061736120736b6f766f726f64612047677572646120626f726f64612070726f766f6461")));
    ((str "protocolConsts"), (JObj [((str "k"), (JUint 2160));
    ((str "protocolMagic"), (JUint 764824073));
    ((str "vssMaxTTL"), (JUint 6));
    ((str "vssMinTTL"), (JUint 2))]));
    ((str "startTime"), (JUint 1506203091));
    ((str "bootStakeholders"), (JObj [((str "1deb82908402c7ee3efeb16f369d97fba316ee621d09b32b8969e54b"), (JUint 1));
    ((str "65904a89e6d0e5f881513d1736945e051b76f095eca138ee869d543d"), (JUint 1));
    ((str "5411c7bf87c252609831a337a713e4859668cba7bba70a9c3ef7c398"), (JUint 1))]));
    ((str "heavyDelegation"), (JObj [((str "1deb82908402c7ee3efeb16f369d97fba316ee621d09b32b8969e54b"), (JObj [((str "cert"), (JStr (str "c8b39f094dc00608acb2d20ff274cb3e0c022ccb0ce558ea7c1a2d3a32cd54b42cc30d32406bcfbb7f2f86d05d2032848be15b178e3ad776f8b1bc56a671400d")));
    ((str "delegatePk"), (JStr (str "6MA6A8Cy3b6kGVyvOfQeZp99JR7PIh+7LydcCl1+BdGQ3MJG9WyOM6wANwZuL2ZN2qmF6lKECCZDMI3eT1v+3w==")));
    ((str "issuerPk"), (JStr (str "UHMxYf2vtsjLb64OJb35VVEFs2eO+wjxd1uekN5PXHe8yM7/+NkBHLJ4so/dyG2bqwmWVtd6eFbHYZEIy/ZXUg==")));
    ((str "omega"), (JUint 0))]));
    ((str "65904a89e6d0e5f881513d1736945e051b76f095eca138ee869d543d"), (JObj [((str "cert"), (JStr (str "552741f728196e62f218047b944b24ce4d374300d04b9b281426f55aa000d53ded66989ad5ea0908e6ff6492001ff18ece6c7040a934060759e9ae09863bf203")));
    ((str "delegatePk"), (JStr (str "X93u2t4nFNbbL54RBHQ9LY2Bjs3cMG4XYQjbFMqt1EG0V9WEDGD4hAuZyPeMKQriKdT4Qx5ni6elRcNWB7lN2w==")));
    ((str "issuerPk"), (JStr (str "C9sfXvPZlAN1k/ImYlXxNKVkZYuy34FLO5zvuW2jT6nIiFkchbdw/TZybV89mRxmiCiv/Hu+CHL9aZE25mTZ2A==")));
    ((str "omega"), (JUint 0))]));
    ((str "5411c7bf87c252609831a337a713e4859668cba7bba70a9c3ef7c398"), (JObj [((str "cert"), (JStr (str "c946fd596bdb31949aa435390de19a549c9698cad1813e34ff2431bc06190188188f4e84001380713e3f916c7526096e7c4855904bff40385007b81e1e657d0e")));
    ((str "delegatePk"), (JStr (str "i1Mgdin5ow5LIBUETzN8AXNavmckPBlHDJ2ujHtzJ5gJiHufQg1vcO4enVDBYFKHjlRLZctdRL1pF1ayhM2Cmw==")));
    ((str "issuerPk"), (JStr (str "mm+jQ8jGw23ho1Vv60Eb/fhwjVr4jehibQ/Gv6Tuu22Zq4PZDWZTGtkSLT+ctLydBbJkSGclMqaNp5b5MoQx/Q==")));
    ((str "omega"), (JUint 0))]))]));
    ((str "nonAvvmBalances"), (JObj []));
    ((str "vssCerts"), (JObj [((str "6bef444609d6e336cb1fe1daba278918dbc5768e6754c2945dd8d25c"), (JObj [((str "expiryEpoch"), (JUint 5));
    ((str "signature"), (JStr (str "2d96e4d4a4c506cc5762128b814ffb20afb97d30eb976334cd241a3935bd155ea1d68772b0903bde4584470359206769d83fa2ce55f56a1027ec3c52cb5e8703")));
    ((str "signingKey"), (JStr (str "6MA6A8Cy3b6kGVyvOfQeZp99JR7PIh+7LydcCl1+BdGQ3MJG9WyOM6wANwZuL2ZN2qmF6lKECCZDMI3eT1v+3w==")));
    ((str "vssKey"), (JStr (str "WCED6k6ArqOnhQtfNRg0FSCxWmAtocZcyV33AdjMotjGwxI=")))]));
    ((str "eb649333a196ecb024a4a5919d3ce86084014136fd3e884e52ecd057"), (JObj [((str "expiryEpoch"), (JUint 5));
    ((str "signature"), (JStr (str "0b115a39935ce6008a4bbad0377f35463fd3510e282186ba43492768a02eb000bd4d3bc50799a24c53879ff2f2587179e797ee1c312acaf107cba67f91cb280b")));
    ((str "signingKey"), (JStr (str "X93u2t4nFNbbL54RBHQ9LY2Bjs3cMG4XYQjbFMqt1EG0V9WEDGD4hAuZyPeMKQriKdT4Qx5ni6elRcNWB7lN2w==")));
    ((str "vssKey"), (JStr (str "WCECS11PWxybUHKY2hHmBgm/zYaR2YsqsH+f3uPOp2ydz/E=")))]));
    ((str "5ffca3a329599727e39a7472c5270e54cf59a27b74306cc9f7fd0f5e"), (JObj [((str "expiryEpoch"), (JUint 5));
    ((str "signature"), (JStr (str "6cc8d84dd55b41efcf46c4b3086da1fb60c938182b4b66657650839d9fac1e2194a8253dc6d5c107ac0e9e714d1364fff9d2114eae07363d9937ee1d92b69c06")));
    ((str "signingKey"), (JStr (str "i1Mgdin5ow5LIBUETzN8AXNavmckPBlHDJ2ujHtzJ5gJiHufQg1vcO4enVDBYFKHjlRLZctdRL1pF1ayhM2Cmw==")));
    ((str "vssKey"), (JStr (str "WCEDca27BxibVjQoA1QJaWx4gAE2MUB0lHfb6jJ3iorXD7s=")))]))]))]).
