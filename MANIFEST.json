{
 "claims": [
  {
   "property": "C01",
   "status": "proved",
   "theorems": [
    "C01_any_quorum"
   ],
   "note": "Over every keccak, Poseidon and every pairing check with the behaviour pairing_ok (one exists: pairing_exists)."
  },
  {
   "property": "C02",
   "status": "proved",
   "theorems": [
    "C02_subset_independent",
    "C02_unique"
   ],
   "note": "For public keys in the subgroup generated by g2, which every accepted global key is."
  },
  {
   "property": "C03",
   "status": "proved",
   "theorems": [
    "C03_share_keys"
   ],
   "note": ""
  },
  {
   "property": "C04",
   "status": "proved",
   "theorems": [
    "C04_decrypt",
    "C04_other_key"
   ],
   "note": ""
  },
  {
   "property": "C05",
   "status": "proved",
   "theorems": [
    "C05_in_circuit",
    "C05_circuit_agrees",
    "C05_shares"
   ],
   "note": "Off-circuit Horner evaluation and in-circuit assignment, for any prover."
  },
  {
   "property": "C06",
   "status": "proved",
   "theorems": [
    "C06_dkg_public",
    "C06_reconstruct"
   ],
   "note": ""
  },
  {
   "property": "C07",
   "status": "proved",
   "theorems": [
    "C07_no_information",
    "C07_hiding"
   ],
   "note": ""
  },
  {
   "property": "C08",
   "status": "proved",
   "theorems": [
    "C08_honest_evaluation_verifies",
    "C08_index_range"
   ],
   "note": ""
  },
  {
   "property": "C09",
   "status": "proved",
   "theorems": [
    "C09_special_soundness",
    "C09_wrong_value_one_challenge"
   ],
   "note": "Special soundness and its Fiat-Shamir consequence: for a wrong value each commitment pair has one bad challenge."
  },
  {
   "property": "C10",
   "status": "proved",
   "theorems": [
    "C10_wrong_number",
    "C10_accepts_iff",
    "C10_bad_order",
    "C10_bad_range",
    "C10_no_panic",
    "C10_value"
   ],
   "note": ""
  },
  {
   "property": "C11",
   "status": "proved",
   "theorems": [
    "C11_config_rejects",
    "C11_config_iff",
    "C11_instance_size",
    "C11_member_instance"
   ],
   "note": ""
  },
  {
   "property": "C12",
   "status": "proved",
   "theorems": [
    "C12_round_trip",
    "C12_encodes",
    "C12_wrong_length",
    "C12_injective"
   ],
   "note": ""
  },
  {
   "property": "C13",
   "status": "proved",
   "theorems": [
    "C13_encoding",
    "C13_encoding2",
    "C13_injective",
    "C13_injective2",
    "C13_read_onchain",
    "C13_read_client"
   ],
   "note": ""
  },
  {
   "property": "C14",
   "status": "proved",
   "theorems": [
    "C14_global_params",
    "C14_order_irrelevant",
    "C14_empty"
   ],
   "note": ""
  },
  {
   "property": "C15",
   "status": "proved",
   "theorems": [
    "C15_same_keys",
    "C15_accepts",
    "C15_gpk_is_g2a"
   ],
   "note": "Precompiles as specified by EIP-196/197 (in_g2_ok, pairing_ok; instances exist)."
  },
  {
   "property": "C16",
   "status": "proved",
   "theorems": [
    "C16_transcript",
    "C16_agree",
    "C16_accepted_onchain",
    "C16_z_malleable",
    "C16_bad_point"
   ],
   "note": "Canonical in z: the contract also accepts non-reduced z (C16_z_malleable), all of which the client accepts after reduction."
  },
  {
   "property": "C17",
   "status": "proved",
   "theorems": [
    "C17_agree",
    "C17_total",
    "C17_accepted_onchain"
   ],
   "note": ""
  },
  {
   "property": "C18",
   "status": "proved",
   "theorems": [
    "C18_hash_total",
    "C18_map_total"
   ],
   "note": ""
  },
  {
   "property": "C19",
   "status": "proved",
   "theorems": [
    "C19_same_point",
    "C19_same_field_elements",
    "C19_same_map",
    "C19_map_domain",
    "C19_inverse_chain",
    "C19_sqrt_chain"
   ],
   "note": "Messages and domains shorter than 2^64 bytes (Rust to_be_bytes of a u64 length); keccak is any function with 256-bit values."
  },
  {
   "property": "C20",
   "status": "proved",
   "theorems": [
    "C20_map",
    "C20_hash",
    "C20_deterministic",
    "C20_long_domain",
    "C20_meets"
   ],
   "note": "SvdW map total, on the curve and equal to RFC 9380 6.6.1 for every field element; hash equals expand_message_xmd + two maps; refuted for domain prefixes of 223 bytes or more (panic). BLAKE2b is an arbitrary function."
  },
  {
   "property": "C21",
   "status": "proved",
   "theorems": [
    "C21_bytes",
    "C21_scalar_text",
    "C21_coordinate_text",
    "C21_scalar_reject",
    "C21_not_reduced",
    "C21_prefix_optional",
    "C21_g1_text",
    "C21_gk_text",
    "C21_g2_text",
    "C21_round_trip"
   ],
   "note": "JSON layer abstracted as records of strings and integers; hex/field parsing concrete."
  },
  {
   "property": "C22",
   "status": "proved",
   "theorems": [
    "C22_member",
    "C22_share",
    "C22_member_mismatch",
    "C22_share_mismatch",
    "C22_member_loads"
   ],
   "note": ""
  },
  {
   "property": "C23",
   "status": "proved",
   "theorems": [
    "C23_only_verified",
    "C23_not_enough",
    "C23_invalid_ignored",
    "C23_enough",
    "C23_out_of_range",
    "C23_duplicate",
    "C23_then_final",
    "C23_final_iff",
    "C23_crash"
   ],
   "note": "JSON text format: any codec that reads back what it wrote and reads no truncated text. Two surprising refusals are recorded: C23_out_of_range, C23_duplicate."
  },
  {
   "property": "C24",
   "status": "proved",
   "theorems": [
    "C24_share_only_verified",
    "C24_order"
   ],
   "note": "The client does not check that the member key is in the public-key list; gpk.json and vks.json are written before the index is validated (C24_order)."
  },
  {
   "property": "C25",
   "status": "proved",
   "theorems": [
    "C25_configured",
    "C25_default",
    "C25_invalid_pair",
    "C25_valid_pair"
   ],
   "note": ""
  },
  {
   "property": "C26",
   "status": "proved",
   "theorems": [
    "C26_phase_transitions"
   ],
   "note": ""
  },
  {
   "property": "C27",
   "status": "proved",
   "theorems": [
    "C27_added_members",
    "C27_registered_members",
    "C27_who_may",
    "C27_index_of_stranger",
    "C27_non_canonical_key",
    "C27_on_curve",
    "C27_key_is_curve_point"
   ],
   "note": "Slots, uniqueness, deposits. C27_index_of_stranger and C27_non_canonical_key record that getIndexPlus(non-member)=1 and that non-canonical coordinates are accepted."
  },
  {
   "property": "C28",
   "status": "proved",
   "theorems": [
    "C28_public_params",
    "C28_accepted_vector",
    "C28_replay_possible"
   ],
   "note": "C28_replay_possible: two members may submit the same vector."
  },
  {
   "property": "C29",
   "status": "proved",
   "theorems": [
    "C29_keys_set_once"
   ],
   "note": ""
  },
  {
   "property": "C30",
   "status": "proved",
   "theorems": [
    "C30_random_write_once",
    "C30_random_is_verified"
   ],
   "note": ""
  },
  {
   "property": "C31",
   "status": "proved",
   "theorems": [
    "C31_rounds_step",
    "C31_rounds",
    "C31_inputs_differ"
   ],
   "note": ""
  },
  {
   "property": "C32",
   "status": "proved",
   "theorems": [
    "C32_submissions",
    "C32_accept_conditions"
   ],
   "note": ""
  },
  {
   "property": "C33",
   "status": "proved",
   "theorems": [
    "C33_threshold_event_once",
    "C33_threshold_event_when"
   ],
   "note": ""
  },
  {
   "property": "C34",
   "status": "proved",
   "theorems": [
    "C34_readers",
    "C34_latest_fails_without_random"
   ],
   "note": ""
  },
  {
   "property": "C35",
   "status": "proved",
   "theorems": [
    "C35_failed_calls_change_nothing",
    "C35_owner_calls",
    "C35_member_calls",
    "C35_non_owner_effects"
   ],
   "note": ""
  },
  {
   "property": "C36",
   "status": "proved",
   "theorems": [
    "C36_deposits"
   ],
   "note": "Balance equals deposits plus ether forced in outside registerNode."
  },
  {
   "property": "C37",
   "status": "proved",
   "theorems": [
    "C37_random_needs_threshold",
    "C37_plain_refuted",
    "C37_plain_round_zero"
   ],
   "note": "Proved for zkdvrf_pre.sol; for zkdvrf.sol the property is refuted by C37_plain_refuted and C37_plain_round_zero."
  },
  {
   "property": "C38",
   "status": "proved",
   "theorems": [
    "C38_real_env_coherent",
    "C38_cache_coherent",
    "C38_same_verdict",
    "C38_refinement",
    "C38_getters"
   ],
   "note": "Cache coherence, equal verdicts, and full simulation of zkdvrf_pre by zkdvrf on accepted transactions."
  },
  {
   "property": "C39",
   "status": "proved",
   "theorems": [
    "C39_entries",
    "C39_payments",
    "C39_balance",
    "C39_closed",
    "C39_one_payment",
    "C39_later_payments_zero",
    "C39_winner",
    "C39_winner_fixed",
    "C39_refusal_reverts",
    "C39_reentrant_second_payment"
   ],
   "note": "Exactly-once payment is proved for histories without re-entrant pickWinner; with re-entrancy by an owner who wins, C39_reentrant_second_payment shows a second payment, which C39_later_payments_zero shows to be 0 absent forced ether. A winner that refuses ether locks the pot (C39_winner_fixed + C39_refusal_reverts)."
  },
  {
   "property": "C40",
   "status": "proved",
   "theorems": [
    "C40_bijection",
    "C40_permutation",
    "C40_indices_in_range",
    "C40_uniform"
   ],
   "note": "Over all index sequences with the i-th index in 0..i; keccak's distribution is not modelled."
  },
  {
   "property": "C41",
   "status": "proved",
   "theorems": [
    "C41_circuit_new",
    "C41_exact",
    "C41_secrets_rare",
    "C41_aux_points_rare",
    "C41_tables_rare",
    "C41_zero_unprovable",
    "C41_tables_exist",
    "C41_provable"
   ],
   "note": "Exactness, with the exceptional cases of the incomplete additions characterised, shown rare, and shown avoidable; the dependency chips (main gate, integer chip, non-native ECC) are modelled by their contracts."
  },
  {
   "property": "C42",
   "status": "proved",
   "theorems": [
    "C42_sound",
    "C42_exact",
    "C42_meaning",
    "C42_unique",
    "C42_poison_blocks",
    "C42_poison",
    "C42_poison_exists"
   ],
   "note": "Sound, exact (iff) and unique; C42_poison, C42_poison_exists and C42_poison_blocks record a finding: unreduced coordinate encodings are accepted by circuit and client but make computeVk revert for ever. The SNARK itself is idealised as circuit satisfiability."
  },
  {
   "property": "C43",
   "status": "proved",
   "theorems": [
    "C43_mul_bits",
    "C43_add",
    "C43_double",
    "C43_add_incomplete",
    "C43_add_incomplete_underconstrained",
    "C43_assign_point",
    "C43_assign_aux",
    "C43_to_bits_unsafe",
    "C43_mul_scalar"
   ],
   "note": "mul_bits, add, double, add_incomplete, point and auxiliary assignment; exact (soundness and completeness). C43_mul_scalar: the scalar-cell variant (unused by the DKG circuit) accepts s*P and (s+r)*P; C43_add_incomplete_underconstrained: equal points leave the sum free."
  },
  {
   "property": "C44",
   "status": "proved",
   "theorems": [
    "C44_add1",
    "C44_add2",
    "C44_double2",
    "C44_unchecked_rows",
    "C44_table",
    "C44_mul1",
    "C44_mul2",
    "C44_circuit_parameters",
    "C44_exceptional_rare"
   ],
   "note": "Window sizes 2..126; both base curves; C44_double2 records the x<>0 assertion in point2 double (should be y); 127 and above would need tables of 2^127 points."
  },
  {
   "property": "C45",
   "status": "proved",
   "theorems": [
    "C45_operations",
    "C45_division",
    "C45_checks",
    "C45_select",
    "C45_field"
   ],
   "note": ""
  },
  {
   "property": "C46",
   "status": "proved",
   "theorems": [
    "C46_constants",
    "C46_rows",
    "C46_builds",
    "C46_mds_inverse",
    "C46_sbox",
    "C46_permutation",
    "C46_rounds",
    "C46_hash",
    "C46_gadget",
    "C46_key_cell",
    "C46_grain",
    "C46_not_56_refuted",
    "C46_mds"
   ],
   "note": "Constants transcribed by tools/gen_poseidon.py; the permutation, ConstantLength<2> sponge and the Pow5Chip gates are halo2_gadgets code (dependency), modelled and proved equal; C46_key_cell ties the gadget to the DKG circuit model."
  },
  {
   "property": "C47",
   "status": "proved",
   "theorems": [
    "C47_degree",
    "C47_above_22_refuted",
    "C47_any_files"
   ],
   "note": "For every directory reachable from the downloaded params22 by any sequence of uses killed anywhere; degrees above 22 and foreign files with a wrong header are refuted (C47_above_22_refuted, C47_header_refuted)."
  },
  {
   "property": "C48",
   "status": "proved",
   "theorems": [
    "C48_right_key",
    "C48_names",
    "C48_params_names",
    "C48_params_not_keys"
   ],
   "note": "halo2 key serialisation is any format that round-trips and never reads a truncated file as a key (it may error or panic)."
  },
  {
   "property": "C49",
   "status": "proved",
   "theorems": [
    "C49_submits",
    "C49_dealing_valid",
    "C49_evaluation_valid",
    "C49_first_evaluation_valid",
    "C49_sent_accepted",
    "C49_at_ten",
    "C49_evaluates",
    "C49_derives_once",
    "C49_stalls_at_ten",
    "C49_deadlock",
    "C49_evaluation_accepted",
    "C49_first_evaluation",
    "C49_registers",
    "C49_no_deposit"
   ],
   "note": "The claim as first listed (every round number) is refuted by C49_stalls_at_ten / C49_deadlock / C49_deadlock_reached; the statement in properties.jsonl is the corrected one."
  },
  {
   "property": "C50",
   "status": "proved",
   "theorems": [
    "C50_combines_iff",
    "C50_reads",
    "C50_initiates_iff",
    "C50_early_initiation",
    "C50_setup_actions",
    "C50_setup_iff",
    "C50_start",
    "C50_restart",
    "C50_start_ok",
    "C50_start_too_many",
    "C50_keys_derived",
    "C50_random_stored",
    "C50_only_verified",
    "C50_noncanonical",
    "C50_poison",
    "C50_keys_completed"
   ],
   "note": "'Initiates only complete rounds' is refuted by C50_early_initiation; C50_noncanonical and C50_poison show the denial of service."
  },
  {
   "property": "C51",
   "status": "proved",
   "theorems": [
    "C51_groups",
    "C51_chord",
    "C51_G1_prime_cyclic",
    "C51_Grumpkin_prime_cyclic",
    "C51_multiples_distinct",
    "C51_accepted_points"
   ],
   "note": ""
  },
  {
   "property": "C52",
   "status": "proved",
   "theorems": [
    "C52_random_verifies",
    "C52_evaluation_verifies",
    "C52_keys",
    "C52_random_determined"
   ],
   "note": "Over every 256-bit keccak, EIP-196/197 precompiles, any Halo2 verifier."
  },
  {
   "property": "C53",
   "status": "proved",
   "theorems": [
    "C53_setup_completes",
    "C53_round_opens",
    "C53_evaluation_accepted",
    "C53_random_accepted",
    "C53_honest_setup",
    "C53_honest_round"
   ],
   "note": "For rounds whose random hashes to a non-zero value (a zero value is indistinguishable from no random in the contract)."
  },
  {
   "property": "C54",
   "status": "proved",
   "theorems": [
    "C54_mock_pipeline",
    "C54_member_flow"
   ],
   "note": "mock commands and member commands of bin/client.rs; `setup` and create_dir_all not modelled."
  },
  {
   "property": "C55",
   "status": "proved",
   "theorems": [
    "C55_verify_iff",
    "C55_verify_sound",
    "C55_other_keys",
    "C55_verify_writes",
    "C55_prove",
    "C55_prove_then_verify",
    "C55_meaning"
   ],
   "note": "The proof system, key serialisation and JSON are parameters with read-back hypotheses (met in C55_meets); C55_verify_iff assumes the cached key file does not make the halo2 reader abort (vk_readable), C55_verify_sound does not."
  },
  {
   "property": "C56",
   "status": "proved",
   "theorems": [
    "C56_index_iff",
    "C56_index_none",
    "C56_index_range",
    "C56_index_inj",
    "C56_index_distinct"
   ],
   "note": ""
  },
  {
   "property": "C57",
   "status": "proved",
   "theorems": [
    "C57_accepted_dealings",
    "C57_vectors",
    "C57_ready",
    "C57_round",
    "C57_meets"
   ],
   "note": "Conditional on the stated soundness of the proof verifier with respect to the circuit (hypothesis, met in C57_meets)."
  },
  {
   "property": "C58",
   "status": "proved",
   "theorems": [
    "C58_true_or_revert",
    "C58_accepts_encodings",
    "C58_lengths",
    "C58_encoding_unique",
    "C58_only_its_size",
    "C58_other_sizes_stuck",
    "C58_only_five"
   ],
   "note": "Every key with the columns of this circuit, any number of instances and rows. The numbers of loop rounds are bounded by what the key says (limit), so a key asking for too many is taken to have enough gas."
  },
  {
   "property": "C59",
   "status": "proved",
   "theorems": [
    "C59_decides",
    "C59_accepts_iff",
    "C59_deployed",
    "C59_stored_vectors_proved",
    "C59_case_any_size",
    "C59_case"
   ],
   "note": "Generic challenges only (generic: x nonzero, x^n<>1, mu none of the four opening points); for other challenges C58 still applies. That the key commits to the DKG circuit is trusted (needs the reference string)."
  },
  {
   "property": "C60",
   "status": "proved",
   "theorems": [
    "C60_key",
    "C60_key_unique",
    "C60_domain",
    "C60_labels",
    "C60_deployed"
   ],
   "note": ""
  },
  {
   "property": "C61",
   "status": "proved",
   "theorems": [
    "C61_soundness",
    "C61_call_rejects",
    "C61_never_stored",
    "C61_domain",
    "C61_deployed_domain",
    "C61_keys_exist",
    "C61_C62_case"
   ],
   "note": "Interactive, algebraic idealisation: challenges are drawn after the messages they depend on, commitments are to polynomials chosen without the secret of the setup. That the deployed key commits to the DKG circuit is a hypothesis (made_from)."
  },
  {
   "property": "C62",
   "status": "proved",
   "theorems": [
    "C62_completeness",
    "C62_call_accepts"
   ],
   "note": "The encodability hypothesis (no commitment is the identity) holds for blinded provers; the verifier rejects the identity (C58)."
  },
  {
   "property": "C63",
   "status": "proved",
   "theorems": [
    "C63_matrices",
    "C63_hash",
    "C63_hash_circuit",
    "C63_wrong_hash_rejected",
    "C63_hash_verified",
    "C63_row",
    "C63_instructions"
   ],
   "note": "The layout (which rows and copies) is halo2_gadgets', modelled from its source; that the deployed key's fixed columns contain such a region is not provable from commitments."
  },
  {
   "property": "C64",
   "status": "proved",
   "theorems": [
    "C64_key",
    "C64_keys_differ",
    "C64_true_or_revert",
    "C64_accepts_encodings",
    "C64_decides",
    "C64_agrees",
    "C64_accepts_iff",
    "C64_case"
   ],
   "note": "For challenges in the degenerate set (x a root of unity, x = 0, or mu at an opening point) only true-or-revert and accepts-encodings are claimed, as for C59."
  },
  {
   "property": "C65",
   "status": "proved",
   "theorems": [
    "C65_setup",
    "C65_demo",
    "C65_late_member",
    "C65_waits",
    "C65_too_early",
    "C65_comparison"
   ],
   "note": "Scripts are modelled as programs over the directory, the contract and its event log; JSON library, proof system and precompiles are quantified over with their contracts. RESTART=true is not modelled."
  },
  {
   "property": "C66",
   "status": "proved",
   "theorems": [
    "C66_prize",
    "C66_pays",
    "C66_ends",
    "C66_players",
    "C66_every_player_tried",
    "C66_too_late",
    "C66_restart",
    "C66_nobody_chooses"
   ],
   "note": "Script steps are atomic; the admin's and the players' keys are used by the scripts only."
  },
  {
   "property": "C67",
   "status": "proved",
   "theorems": [
    "C67_node_agrees",
    "C67_admin_agrees",
    "C67_client_config",
    "C67_degree_missing",
    "C67_any_degree",
    "C67_starts",
    "C67_refused",
    "C67_degree_is_threshold",
    "C67_interval_is_polling",
    "C67_deploy",
    "C67_deployed",
    "C67_no_helpers"
   ],
   "note": "bcfg, ethers' string parsing and hardhat's artifact lookup are modelled by their contracts; the wallets, the provider and start dates are not modelled."
  },
  {
   "property": "C68",
   "status": "proved",
   "theorems": [
    "C68_registration_stays",
    "C68_dealing_stays",
    "C68_evaluation_stays",
    "C68_evaluation_late",
    "C68_key_kept",
    "C68_registers_once",
    "C68_second_dealing",
    "C68_evaluation_race",
    "C68_registers_undisturbed",
    "C68_restart_loses_key"
   ],
   "note": "The service's wallet is used by the service only; its transactions are executed in the order of their nonces, at any later time or never; RPC failures are covered by stops and kills. Parts (2) and (4) are about runs that are exhibited for every state that meets the hypotheses."
  },
  {
   "property": "C69",
   "status": "proved",
   "theorems": [
    "C69_one_at_a_time",
    "C69_start_accepted",
    "C69_addition_accepted",
    "C69_initiation",
    "C69_random_accepted",
    "C69_keys",
    "C69_pacing",
    "C69_restart_unfinished",
    "C69_combines",
    "C69_recovers",
    "C69_starts",
    "C69_first_round",
    "C69_adds",
    "C69_setup",
    "C69_iteration"
   ],
   "note": "The owner's wallet is used by the service only; additions, initiations and the rest are awaited as in the code; the service is not started while a transaction of its own is pending; RPC failures are covered by stops and kills. Parts (3) second half, (5) and (6) are about runs that are exhibited for every state that meets the hypotheses."
  }
 ]
}