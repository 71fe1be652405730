(** protocol/protocol_test.go on /repo/testdata/protocol/protocol.json, byte for byte. *)
From Verif.Model Require Import Base Node Json.
Open Scope Z_scope.
Definition protocol_json : bytes := str "{
    ""txFeePerByte"": 44,
    ""minUTxOValue"": 1000000,
    ""decentralization"": 0,
    ""utxoCostPerWord"": null,
    ""stakePoolDeposit"": 500000000,
    ""poolRetireMaxEpoch"": 18,
    ""extraPraosEntropy"": null,
    ""collateralPercentage"": null,
    ""stakePoolTargetNum"": 500,
    ""maxBlockBodySize"": 65536,
    ""minPoolCost"": 340000000,
    ""maxTxSize"": 16384,
    ""treasuryCut"": 0.2,
    ""maxBlockExecutionUnits"": null,
    ""maxCollateralInputs"": null,
    ""maxValueSize"": null,
    ""maxBlockHeaderSize"": 1100,
    ""maxTxExecutionUnits"": null,
    ""costModels"": {},
    ""protocolVersion"": {
        ""minor"": 0,
        ""major"": 4
    },
    ""txFeeFixed"": 155381,
    ""stakeAddressDeposit"": 2000000,
    ""monetaryExpansion"": 3.0e-3,
    ""poolPledgeInfluence"": 0.3,
    ""executionUnitPrices"": null
}".
Example protocol_test : LoadProtocol (Some protocol_json) =
  ({| p_fee_per_byte := 44; p_fee_fixed := 155381; p_max_tx_size := 16384; p_major := 4; p_minor := 0; p_min_utxo := 1000000 |}, false).
Proof. vm_compute. reflexivity. Qed.
