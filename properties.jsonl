{"id": "C01", "title": "Any t members produce a pseudorandom that verifies", "statement": "After an honest DKG with a valid configuration (0 < t <= n), for every message, the partial evaluations of any t distinct members listed in increasing index order combine without error into a pseudorandom whose proof is H(message)^s, where s is the sum of the dealers' secrets, and which passes verification against the global public key.", "quantifier": "all t, n, dealer coefficient vectors, messages, prover nonces and all t-element subsets of members", "why_tests_cant": "tests sample a handful of (t,n) and always the first t members", "anchors": ["src/dkg.rs:combine_partial_evaluations", "src/dkg.rs:DkgShareKey::evaluate", "src/dkg.rs:PseudoRandom::verify", "src/lib.rs:dkg_global_public_params"]}
{"id": "C02", "title": "The pseudorandom is unique and independent of the contributing subset", "statement": "Two pseudorandoms that both verify for the same message and the same global public key have the same proof and the same value; in particular two different t-subsets of members always combine to byte-identical outputs.", "quantifier": "all messages, all global public keys, all pairs of candidate pseudorandoms, all pairs of t-subsets", "why_tests_cant": "uniqueness is a statement about every possible proof point, including adversarial ones", "anchors": ["src/dkg.rs:PseudoRandom::verify", "src/dkg.rs:combine_partial_evaluations"]}
{"id": "C03", "title": "Derived share keys match the published verification keys", "statement": "If every dealer ran the DKG honestly with the agreed member public keys, then for every member i the share key derived by decrypting and summing the dealers' ciphertexts for slot i passes the check against the i-th published verification key, and its verification key is the generator raised to its secret.", "quantifier": "all n, t, dealer randomness, member keys, members i", "why_tests_cant": "quantifies over all dealer randomness and all committee sizes", "anchors": ["src/lib.rs:MemberKey::dkg_share_key", "src/lib.rs:dkg_global_public_params", "src/dkg.rs:DkgShareKey::verify"]}
{"id": "C04", "title": "Encrypted shares decrypt to the dealt share, for the intended recipient", "statement": "The ciphertext a dealer publishes for slot i, decrypted with the secret key of slot i and the dealer's ephemeral public value, is exactly the polynomial share for index i; decrypting with any key yields the share plus the difference of the two one-time pads.", "quantifier": "all dealer randomness, all member key pairs, all slots", "why_tests_cant": "depends on Diffie-Hellman commutation across two curves for every scalar", "anchors": ["src/lib.rs:DkgMemberParams::new", "src/lib.rs:MemberKey::decrypt_share"]}
{"id": "C05", "title": "Shares are the evaluations of one polynomial of degree < t", "statement": "The share vector for n members has exactly n entries (n >= 1) and its i-th entry is the value at i of the polynomial whose coefficients are the dealer's, including the special-cased first share; the in-circuit computation and the off-circuit computation agree.", "quantifier": "all n, all non-empty coefficient lists, all indices", "why_tests_cant": "a wrong power or off-by-one only shows for particular indices or degrees", "anchors": ["src/dkg.rs:evaluate_poly", "src/dkg.rs:shares", "src/dkg_circuit.rs:DkgCircuit::synthesize"]}
{"id": "C06", "title": "Any t shares reconstruct the group secret", "statement": "For any t distinct member indices, the Lagrange combination at zero of their share keys is the sum of the dealers' constant coefficients, i.e. the discrete logarithm of the global public key in both groups.", "quantifier": "all t-subsets of distinct indices below the field characteristic, all polynomials of degree < t", "why_tests_cant": "finite testing cannot cover all subsets and polynomials", "anchors": ["src/dkg.rs:combine_partial_evaluations", "src/lib.rs:dkg_global_public_params"]}
{"id": "C07", "title": "t-1 shares carry no information on the secret", "statement": "For any t-1 distinct non-zero indices, any share values at them and any candidate secret, there is exactly one coefficient vector of length t giving those shares and that secret.", "quantifier": "all sets of t-1 indices, all share values, all candidate secrets", "why_tests_cant": "a perfect-secrecy statement counts all polynomials", "anchors": ["src/dkg.rs:shares"]}
{"id": "C08", "title": "Honest partial evaluations always verify", "statement": "A partial evaluation produced by a share key whose verification key is the generator raised to its secret, with an index in 1..n, passes verification for that key and message; the reported value is H(message) raised to the secret.", "quantifier": "all secrets, nonces, messages, indices in range", "why_tests_cant": "completeness must hold for every nonce and message", "anchors": ["src/dkg.rs:DkgShareKey::evaluate", "src/dkg.rs:PartialEval::verify"]}
{"id": "C09", "title": "Partial-evaluation proofs are sound for equality of discrete logarithms", "statement": "For a fixed verification key vk=g^sk, message and claimed value v, if v is not H(message)^sk then for each pair of commitments at most one challenge can be answered (special soundness): two accepting answers with the same commitments and different challenges force v = H(message)^sk.", "quantifier": "all keys, messages, claimed values, commitments, challenge/response pairs", "why_tests_cant": "soundness quantifies over all cheating provers", "anchors": ["src/dkg.rs:PartialEval::verify"]}
{"id": "C10", "title": "Combination accepts exactly strictly increasing in-range indices", "statement": "Given exactly t partial evaluations, combination succeeds iff their indices are strictly increasing and all lie in 1..n; otherwise it returns InvalidOrder at the first offending position or InvalidIndex with the first offending index, and with a different number of evaluations it panics. It never divides by zero.", "quantifier": "all lists of partial evaluations, all configurations", "why_tests_cant": "boundary and duplicate cases at every position and length", "anchors": ["src/dkg.rs:check_indices", "src/dkg.rs:combine_partial_evaluations"]}
{"id": "C11", "title": "Configuration validation and instance size", "statement": "A configuration is created iff 0 < threshold <= number_of_members, it reports back the given values, and its instance size 7n+14 equals the length of every instance vector a member produces and the length the contract requires.", "quantifier": "all thresholds and member counts", "why_tests_cant": "three independent computations of one size must agree for every n", "anchors": ["src/dkg.rs:DkgConfig::new", "src/dkg.rs:DkgConfig::instance_size", "src/lib.rs:DkgMemberPublicParams::instance", "contracts/zkdvrf.sol:constructor"]}
{"id": "C12", "title": "Public-parameter instance round trip", "statement": "Decoding the instance vector built from a member's public parameters and the list of member keys returns exactly those public parameters and keys; decoding a vector of any other length panics.", "quantifier": "all points (including identity), ciphertexts, key lists and n", "why_tests_cant": "limb splitting must be lossless for all 254-bit coordinates", "anchors": ["src/lib.rs:DkgMemberPublicParams::instance", "src/lib.rs:DkgMemberPublicParams::from_instance", "src/utils.rs:point_to_public", "src/utils.rs:public_to_point", "src/utils.rs:point2_to_public", "src/utils.rs:public_to_point2"]}
{"id": "C13", "title": "Coordinate limb encoding is injective and in range", "statement": "Encoding a curve point into public field elements yields, for each coordinate, two elements below 2^136 that recombine to the coordinate; different points encode differently; the on-chain reader recovers the same coordinates without overflow.", "quantifier": "all coordinates of both base fields", "why_tests_cant": "needs every 254-bit coordinate", "anchors": ["src/utils.rs:point_to_public", "src/utils.rs:public_to_point", "contracts/GlobalPublicParams.sol:readBnG1"]}
{"id": "C14", "title": "Global public parameters are the sums of the dealers' contributions, in any order", "statement": "The global parameters computed from the dealers' public parameters have ga and g2a equal to the sums of the dealers' values and i-th verification key equal to the sum of the dealers' i-th public shares; the result does not depend on the order of the dealers; an empty list panics.", "quantifier": "all dealer lists and permutations", "why_tests_cant": "order independence over all permutations", "anchors": ["src/lib.rs:dkg_global_public_params"]}
{"id": "C15", "title": "The on-chain and off-chain global parameters agree", "statement": "From the same accepted instances, the verification keys stored by the contract equal those derived by the client, and the contract accepts a global public key iff it has the same discrete logarithm as the sum of the dealers' ga.", "quantifier": "all lists of well-formed instances", "why_tests_cant": "differential equality of two implementations over all inputs", "anchors": ["contracts/GlobalPublicParams.sol:createGpp", "src/lib.rs:dkg_global_public_params", "src/lib.rs:DkgMemberPublicParams::from_instance"]}
{"id": "C16", "title": "Client and contract agree on partial-evaluation validity", "statement": "For every canonical partial evaluation, message and verification key, the contract's verification succeeds iff the client's verification does; the hashed transcript is byte-identical.", "quantifier": "all points, scalars, messages", "why_tests_cant": "two independently written verifiers compared on all inputs", "anchors": ["contracts/PseudoRand.sol:verifyPartialEval", "src/dkg.rs:PartialEval::verify"]}
{"id": "C17", "title": "Client and contract agree on final-random validity", "statement": "For every canonical proof point and global public key, the contract's pairing check plus value check accepts iff the client's verification accepts.", "quantifier": "all proofs, values, messages, keys", "why_tests_cant": "differential equality over all inputs", "anchors": ["contracts/PseudoRand.sol:verifyPseudoRand", "contracts/zkdvrf.sol:submitRandom", "src/dkg.rs:PseudoRandom::verify"]}
{"id": "C18", "title": "Hash-to-curve is total and lands on the curve", "statement": "For every domain and message, the EVM-friendly hash to BN254 G1 terminates without error and returns a point satisfying the curve equation.", "quantifier": "all byte strings, hence all field elements as map input", "why_tests_cant": "the existence of a square root must hold for all 2^254 inputs, including the exceptional ones", "anchors": ["src/hash_to_curve_evm.rs:map_to_curve_evm", "contracts/libs/Hash.sol:mapToPoint"]}
{"id": "C19", "title": "Rust and Solidity hash to the same curve point", "statement": "For every domain and message the client's hash_to_curve and the contract's hashToG1 return the same coordinates, including the square-root and inverse addition chains used on chain.", "quantifier": "all domains and messages", "why_tests_cant": "differential equality over all inputs of long arithmetic programs", "anchors": ["src/hash_to_curve_evm.rs", "contracts/libs/Hash.sol", "contracts/libs/ModExp.sol"]}
{"id": "C20", "title": "Grumpkin hash-to-curve is the RFC 9380 SvdW hash and total", "statement": "For every field element the Shallue-van de Woestijne map used for Grumpkin returns exactly one point, on the curve, the one RFC 9380 6.6.1 specifies (with its sign rule), whatever correct square-root algorithm is used and including the exceptional inputs; hash_to_curve_grumpkin therefore returns, for every message and every domain prefix of at most 222 bytes, the sum of the points of the two field elements of expand_message_xmd over BLAKE2b with DST = prefix || \"-grumpkin_g1_XMD:BLAKE2b_SVDW_RO_\"; a prefix of 223 bytes or more panics on every message.", "quantifier": "all field elements, messages, domain prefixes, square-root implementations and hash functions", "why_tests_cant": "needs all inputs", "anchors": ["src/hash_to_curve.rs:svdw_map_to_curve", "src/utils.rs:hash_to_curve_grumpkin"]}
{"id": "C21", "title": "Hex and file serialisation round-trips", "statement": "Writing a scalar, coordinate, point, key pair, share key, partial evaluation, pseudorandom or public-parameter file and reading it back yields the same value; reading accepts an optional 0x prefix; encodings of values that are not canonical field elements or not on the curve are rejected.", "quantifier": "all values and all strings", "why_tests_cant": "round trip over all values, rejection over all malformed strings", "anchors": ["bin/serialise.rs"]}
{"id": "C22", "title": "Loaded key files are self-consistent", "statement": "A member key or share key loaded from disk always satisfies public = generator^secret; a file where they disagree makes loading fail rather than return a key.", "quantifier": "all file contents", "why_tests_cant": "all corrupted contents", "anchors": ["bin/serialise.rs:JsonMemberKey", "bin/serialise.rs:JsonDkgShareKey"]}
{"id": "C23", "title": "Client combine only ever writes a verified random", "statement": "`rand combine` writes an output file only if the produced pseudorandom verifies against the global public key for the input; it uses the first t evaluations that individually verify, refuses when fewer than t remain, and never combines an evaluation that failed verification unless told to skip verification.", "quantifier": "all input files, with any number of bad evaluations in any position", "why_tests_cant": "all mixtures of valid and invalid evaluations", "anchors": ["bin/client.rs:rand_combine"]}
{"id": "C24", "title": "Client DKG derive is consistent and ordered", "statement": "`dkg derive` writes a share key only for an index in 1..n, only if the derived key equals the verification key at that index of the global parameters computed from the same published instances; it writes the global key, the verification keys and then the share, in this order, and reports success only when everything it was asked for is written. (The code does not check that the member key is in the public-key list.)", "quantifier": "all inputs and lists of public parameters", "why_tests_cant": "all orders and contents", "anchors": ["bin/client.rs"]}
{"id": "C25", "title": "Environment configuration fallback", "statement": "The client's configuration is the three environment values exactly when all three are present and parse as integers, and otherwise the default (3,5,18); an invalid threshold/member pair is an error, never a silently different configuration.", "quantifier": "all environments", "why_tests_cant": "all combinations of missing and malformed variables", "anchors": ["bin/client.rs:get_config_from_env"]}
{"id": "C26", "title": "Phases only move forward, each by its own entry point", "statement": "Over any history the contract phase never decreases and changes only Unregistered -> (Registered ->) Nidkg by the owner when all members registered, Nidkg -> NidkgComplete when the last member's parameters are accepted, NidkgComplete -> Ready when the global parameters are computed.", "quantifier": "all call histories by all senders", "why_tests_cant": "all interleavings", "anchors": ["contracts/zkdvrf.sol", "contracts/zkdvrf_pre.sol"]}
{"id": "C27", "title": "Only permissioned members register, once, with the deposit, at a unique slot", "statement": "At most memberCount addresses are ever added, only by the owner, never the zero address, never twice; an address registers at most once, only after being added and only with at least the minimum deposit; registered members occupy the key slots 0,1,2,... in registration order without gaps or collisions, and the key stored in a member's slot is the one it registered and is on the Grumpkin curve.", "quantifier": "all call histories", "why_tests_cant": "all orders of calls", "anchors": ["contracts/zkdvrf.sol:addPermissionedNodes", "contracts/zkdvrf.sol:registerNode"]}
{"id": "C28", "title": "Each accepted parameter vector carries the full key list and is counted once per member", "statement": "Each member's public parameters are accepted at most once, only in the NIDKG phase, only if the proof verifies and the vector has length 7n+14 ending with exactly the registered public keys in slot order; the phase completes exactly when memberCount vectors were accepted.", "quantifier": "all call histories and vectors", "why_tests_cant": "all histories", "anchors": ["contracts/zkdvrf.sol:submitPublicParams", "contracts/zkdvrf.sol:checkPublicParams"]}
{"id": "C29", "title": "Verification keys and the global key are set once and never change", "statement": "The verification-key list has memberCount entries once Ready, is empty before, and neither it nor the global public key ever changes after being set.", "quantifier": "all call histories", "why_tests_cant": "all histories after setup", "anchors": ["contracts/zkdvrf.sol:computeVk"]}
{"id": "C30", "title": "Round randoms are write-once", "statement": "Once the contract reports a random for a round, every later state reports the same proof and value for that round; a stored value is the keccak of the stored proof, and the proof passed the pairing check for that round's input.", "quantifier": "all call histories, all rounds", "why_tests_cant": "immutability over unbounded futures", "anchors": ["contracts/zkdvrf.sol:submitRandom", "contracts/zkdvrf.sol:getRandomAtRound"]}
{"id": "C31", "title": "Rounds are sequential and earlier rounds are complete", "statement": "The round number only increases, by one, by the owner, only in Ready phase; when it is k, every round 1..k-1 has a stored random; no random exists for rounds above k; the input of round k is the fixed prefix followed by the decimal of k, so inputs of different rounds differ.", "quantifier": "all call histories", "why_tests_cant": "all histories and all round numbers", "anchors": ["contracts/zkdvrf.sol:initiateRandom"]}
{"id": "C32", "title": "A member counts at most once per round and only with a verified evaluation under its own key", "statement": "The submission count of a round equals the number of distinct members that submitted in it; each stored evaluation carries the submitter's index, was verified against the verification key of the submitter's slot for the round's input, and is never overwritten; submissions are impossible before the first round and after the round's random is stored.", "quantifier": "all call histories", "why_tests_cant": "all interleavings of members", "anchors": ["contracts/zkdvrf.sol:submitPartialEval"]}
{"id": "C33", "title": "Threshold event fires exactly once per round", "statement": "In any history RandomThresholdReached is emitted for a round iff the number of accepted evaluations for that round reached the threshold, at that very submission and never again.", "quantifier": "all call histories", "why_tests_cant": "all histories", "anchors": ["contracts/zkdvrf.sol:submitPartialEval"]}
{"id": "C34", "title": "Readers never see an unset random", "statement": "getRandomAtRound returns only completed rounds and reverts otherwise; getLatestRandom returns the current round's random if set and else the previous round's completed random, and reverts when there is none.", "quantifier": "all reachable states and rounds", "why_tests_cant": "all states", "anchors": ["contracts/zkdvrf.sol:getLatestRandom", "contracts/zkdvrf.sol:getRandomAtRound"]}
{"id": "C35", "title": "Owner-only and member-only entry points; failed calls change nothing", "statement": "Every state-changing call by an unauthorised sender reverts and leaves the state unchanged; no call by anyone but the owner changes the round number, the member list, the phase to Nidkg, or a random.", "quantifier": "all states, all senders, all calls", "why_tests_cant": "all states", "anchors": ["contracts/zkdvrf.sol", "contracts/zkdvrf_pre.sol"]}
{"id": "C36", "title": "Deposits are accounted for", "statement": "The contract's balance always equals the sum of the recorded member deposits, each at least the minimum, and never decreases.", "quantifier": "all call histories", "why_tests_cant": "all histories", "anchors": ["contracts/zkdvrf.sol:registerNode"]}
{"id": "C37", "title": "A random requires a threshold of on-chain evaluations", "statement": "In the precomputing contract a random for round k >= 1 exists only if at least threshold distinct members submitted a verified evaluation in round k. (The non-precomputing contract does not check this; a random can be stored for round 0 before setup.)", "quantifier": "all call histories", "why_tests_cant": "all histories", "anchors": ["contracts/zkdvrf_pre.sol:submitRandom", "contracts/zkdvrf.sol:submitRandom"]}
{"id": "C38", "title": "The precomputing contract is a refinement of the plain one", "statement": "In every reachable state the cached round hash equals the hash of the round input, so verification against the cache gives the same verdict as verification against the message.", "quantifier": "all call histories", "why_tests_cant": "cache coherence over all histories", "anchors": ["contracts/zkdvrf_pre.sol:initiateRandom", "contracts/PseudoRand.sol:verifyPartialEvalFast"]}
{"id": "C39", "title": "Lottery pays the whole pot once to an entrant chosen by the random", "statement": "Entry is possible only while open and before the chosen round starts, once per address with at least the minimum bet; picking a winner needs the owner, at least one player and the round's random; it pays the whole balance to one of the entrants exactly once, after which the lottery is closed; the stored player list remains a permutation of the entrants.", "quantifier": "all call histories, all random values", "why_tests_cant": "all histories and random values", "anchors": ["contracts/lottery.sol"]}
{"id": "C40", "title": "Lottery shuffle is a fair Fisher-Yates", "statement": "The shuffle maps the sequences of swap indices (j_i in 0..i) bijectively to permutations of the players, so uniform indices give a uniform winner.", "quantifier": "all player counts and index sequences", "why_tests_cant": "counting argument over all permutations", "anchors": ["contracts/lottery.sol:shuffle"]}
{"id": "C41", "title": "DKG circuit exposes exactly the honest instance", "statement": "For every witness (coefficients, randomness, member keys) the public values computed by the DKG circuit equal, in order, the instance vector computed by the client for the same witness.", "quantifier": "all t, n, witnesses and auxiliary generators for which the circuit is satisfiable", "why_tests_cant": "position-by-position agreement for all n and witnesses", "anchors": ["src/dkg_circuit.rs:DkgCircuit::synthesize", "src/lib.rs:DkgMemberPublicParams::instance"]}
{"id": "C42", "title": "DKG circuit soundness", "statement": "Any instance the circuit accepts comes from some polynomial of degree < t and some randomness: ga = g^a0, gs_i = g^f(i), g2a = g2^a0, gr = gg^r, cipher_i = f(i) + Poseidon(pk_i^r).", "quantifier": "all satisfying assignments", "why_tests_cant": "quantifies over malicious provers", "anchors": ["src/dkg_circuit.rs", "src/grumpkin_chip.rs", "src/ecc_chip"]}
{"id": "C43", "title": "Grumpkin chip scalar multiplication is correct and complete outside exceptional points", "statement": "The in-circuit double-and-add with auxiliary generator returns bits*P for every bit string whenever its incomplete additions do not hit equal x coordinates, and the constraint system accepts no other output.", "quantifier": "all points, bit strings, auxiliary generators", "why_tests_cant": "all scalars", "anchors": ["src/grumpkin_chip/mul.rs", "src/grumpkin_chip/add.rs"]}
{"id": "C44", "title": "Fixed-base windowed multiplication is correct and never hits an exceptional case before the checked rows", "statement": "The fixed-base window tables and accumulation return scalar*P for every scalar; the unchecked additions never add points with equal x.", "quantifier": "all scalars, all base points of prime order, all window sizes >= 2", "why_tests_cant": "all 2^254 scalars", "anchors": ["src/ecc_chip/point_base_chip/fix_mul.rs", "src/ecc_chip/point2_base_chip/fix_mul.rs"]}
{"id": "C45", "title": "Quadratic-extension arithmetic is correct", "statement": "The in-circuit Fq2 operations (add, sub, mul, square, division) compute the field operations of Fq[u]/(u^2+1), and division succeeds exactly on non-zero divisors.", "quantifier": "all elements", "why_tests_cant": "algebraic identity on all inputs", "anchors": ["src/ecc_chip/integer2.rs"]}
{"id": "C46", "title": "Poseidon: parameters sound, permutation a bijection, circuit and library agree", "statement": "The Poseidon parameters initialise without panic, every constant is canonical, MDS and MDS_INV multiply to the identity, the permutation is a bijection of the state space and consists of exactly the 4+56+4 rounds with the listed constants; the key the circuit's gadget is forced to output on two cells is exactly the key the library computes when dealing and decrypting shares. The constants and the matrix (which is MDS) are exactly the output of the Poseidon paper's Grain-LFSR parameter generator for this field, width 3, 8 full and 57 partial rounds; the code runs 56 partial rounds with them, so it is not the paper's instance for either number.", "quantifier": "all states, all pairs of field elements, all assignments satisfying the gadget's gates", "why_tests_cant": "bijectivity on all states and soundness against every assignment of the gadget's cells", "anchors": ["src/poseidon.rs", "src/poseidon/bn256.rs", "src/lib.rs:82-83,267-271", "src/dkg_circuit.rs:369-380"]}
{"id": "C47", "title": "Setup parameter cache returns the requested degree", "statement": "In every directory that the client can have left behind, starting from the downloaded params22 file and killed at any point any number of times, loading or creating SRS parameters for a degree up to 22 succeeds and returns exactly the downloaded parameters cut to that degree; a half-written file is never taken for parameters. (Above 22 the code silently returns degree 22, and a foreign file of the right size with a smaller header degree is accepted: both shown as refutations.)", "quantifier": "all histories of uses and crash points, all degrees up to 22; for arbitrary files, an upper bound on the degree", "why_tests_cant": "all crash points of the write", "anchors": ["src/utils.rs:load_or_create_params", "src/utils.rs:load_params"]}
{"id": "C48", "title": "Cached keys match the configuration they are used for", "statement": "A proving or verifying key obtained from the cache directory is the one generated for the same threshold, member count, degree and chip feature, after any history of uses with different configurations killed at any point; distinct configurations never share a cache file name.", "quantifier": "all histories of uses and crash points, all pairs of configurations", "why_tests_cant": "injectivity of names over all numbers", "anchors": ["src/utils.rs:load_or_create_pk", "src/utils.rs:load_or_create_vk"]}
{"id": "C49", "title": "Node service submits for open rounds (and stalls at round ten)", "statement": "As long as the round number and the last submitted round have equally many decimal digits (in particular up to round 9), a polling node starts its evaluation program exactly when the contract is Ready, knows the node, the node has not submitted for the round and fewer than threshold evaluations are in; deriving its keys the first time. The transaction the program sends is accepted. The claim for every round is false: numbers are compared as decimal strings, so at round 10 a member that last submitted in rounds 2..9 does nothing, and a deployment whose members all took part in round 9 is stuck forever. Registration succeeds when no deposit is required and is always refused otherwise, because the service sends no ether. Whatever dealing it submits is the one made of the coefficients and randomness its client drew, to exactly the keys the contract lists, at the node's own position, with a proof that its client verified under the key of this group.", "quantifier": "all contracts, histories, interleavings of other transactions between the reads, options, file systems and text formats", "why_tests_cant": "only shows at round 10 and beyond", "anchors": ["services/node.ts"]}
{"id": "C50", "title": "Admin service combines only complete rounds, and what it sends is right", "statement": "The admin starts a combination exactly for the current round when it is open, has no random and at least threshold accepted evaluations; it passes accepted evaluations of that round only, in increasing index order and none missing that was accepted before the reading began; the transaction it sends carries a random verifying under the group key, and, if the evaluations are correct and reduced, is accepted and stored. It sends the key that makes the contract Ready. It initiates a round also when the previous one is unfinished (refused by the contract). One member can make the combination fail forever by submitting its evaluation with z + r in place of z, which the contract accepts.", "quantifier": "all contracts, histories, interleavings, clocks, options, file systems and text formats", "why_tests_cant": "all states", "anchors": ["services/admin.ts"]}
{"id": "C51", "title": "Curve arithmetic: the groups used are cyclic of prime order", "statement": "Both curves form commutative groups under the chord-tangent law implemented by the libraries and precompiles; every point of BN254 G1 and of Grumpkin is a multiple of its generator and has prime order, so every accepted on-curve point lies in the right subgroup.", "quantifier": "all points of both curves", "why_tests_cant": "all points", "anchors": ["contracts/libs/Grumpkin.sol", "src/grumpkin_chip.rs", "src/dkg.rs"]}
{"id": "C52", "title": "What the deployed contracts store passes the client's own checks", "statement": "In every history of either contract running with its real on-chain verification libraries, every random that can be read for a round verifies with the client's verify command against the stored global key for that round's input, every counted evaluation is one the client accepts under the submitter's verification key, the stored keys are the ones the client computes from the same public parameters, and any two deployments with the same global key store the same random for the same round.", "quantifier": "all histories of transactions by anyone, all rounds, both contracts", "why_tests_cant": "all histories and both implementations at once", "anchors": ["contracts/zkdvrf.sol:submitRandom", "contracts/zkdvrf_pre.sol", "contracts/PseudoRand.sol", "contracts/GlobalPublicParams.sol", "src/dkg.rs:PseudoRandom::verify"]}
{"id": "C53", "title": "What the client accepts the contract accepts: honest members reach Ready and finish every round", "statement": "From deployment, honest members that register distinct addresses, submit their honestly created parameters with accepted proofs and then compute the keys all succeed and leave the contract Ready; in any Ready contract whose rounds are complete, the owner can open the next round, any quorum of members can submit its evaluations and the owner can submit the combination, each of these transactions succeeding, unless the random's hash value is zero.", "quantifier": "all numbers of members and thresholds, all quorums, all rounds, all prior histories", "why_tests_cant": "liveness over every configuration and every prior history", "anchors": ["contracts/zkdvrf.sol", "contracts/zkdvrf_pre.sol", "src/lib.rs:dkg_global_public_params", "src/dkg.rs:combine_partial_evaluations"]}
{"id": "C54", "title": "The client pipeline runs end to end on files", "statement": "Starting from any directory with the expected layout, creating members, running the mock DKG, evaluating, combining and verifying as separate commands that only communicate through files all succeed, and the pseudorandom left on disk is hash(input)^secret for the secret the global key on disk stands for; every member can derive its share, evaluate any input and have its evaluation verified.", "quantifier": "all thresholds and member counts, secrets, polynomials, nonces, inputs and prior file contents", "why_tests_cant": "all configurations and file contents", "anchors": ["bin/client.rs", "bin/mock.rs", "bin/serialise.rs"]}
{"id": "C55", "title": "dkg prove and dkg verify agree and check the dealt-to keys", "statement": "`client dkg verify i` succeeds exactly when i is a member index, the member's proof and instance files and the member public keys file are present and well formed, the instance names exactly the keys on file (in order), and the proof verifies for the instance under the verification key of this configuration and degree. It writes nothing outside the parameter directory. A `client dkg prove i` that succeeds leaves exactly its proof and instance (plus cached parameters/keys), the instance is the honest dealing to the keys on file, and a following `dkg verify i` succeeds. With a sound proof system a verified file is a degree-(threshold-1) dealing to the keys on file.", "quantifier": "every member index, configuration, degree, file system state reached by earlier runs of the client killed at any write, coefficients, randomness and seed, every proof system and JSON format that read back what they write", "why_tests_cant": "ranges over all file contents, crash points of earlier runs and all foreign instances; a test tries one directory", "anchors": ["bin/client.rs: Commands::Dkg prove/verify (408-506)", "bin/proof.rs: create_proof_checked, verify_single", "src/utils.rs: load_or_create_params, load_or_create_vk, load_or_create_pk"]}
{"id": "C56", "title": "A member finds its index in the key list", "statement": "MemberKey::index returns i exactly when i >= 1, the i-th key (counted from 1) is the member's own and no earlier one is; it returns None exactly when the key is not on the list. With distinct keys every member finds its own place; members with the same key find the same (first) index.", "quantifier": "every member key and every list of public keys, repetitions allowed", "why_tests_cant": "unit tests use a handful of random distinct keys", "anchors": ["src/lib.rs: MemberKey::index (90-95)"]}
{"id": "C57", "title": "Members need not trust the other members' contributions", "statement": "If the proof verifier accepts only what the DKG circuit accepts, then in every history of the contract: every accepted public-parameter vector carries exactly the registered keys; once Ready, the stored group key and verification keys are those of one polynomial with at most threshold coefficients; every member whose registered key is an honestly generated key derives from the accepted vectors its value of that polynomial, matching its verification key, and produces evaluations everybody accepts; and any threshold many such members together with the owner can complete any open round by their own transactions alone, whatever the other members dealt and have submitted.", "quantifier": "all histories of both contracts, all dealings by malicious members, all sets of honest members of threshold size, all rounds", "why_tests_cant": "quantifies over all malicious dealings and histories", "anchors": ["src/dkg_circuit.rs", "src/lib.rs:dkg_share_key", "contracts/zkdvrf.sol:submitPublicParams", "contracts/GlobalPublicParams.sol:createGpp"]}
{"id": "C58", "title": "The on-chain SNARK verifier answers true or reverts, and only reads well-formed proofs", "statement": "verifyProof of contracts/Halo2Verifier.sol, given any verifying key with the columns of this circuit (23 fixed and 9 permuted) for any number of instances and rows (the deployed key is one, C60), returns true or reverts: it never returns false and never does anything else. It returns true only if the proof is exactly 4480 bytes that encode 31 points of BN254 G1 other than the identity and 78 scalars below r, and there are exactly as many instances as the key says, all below r; this reading is unique, so a byte string or instance vector has at most one meaning. Hence a contract deployed with a key for any number of instances other than 7 times the number of members plus 14 never accepts a parameter vector and never leaves the key-generation phase; with the deployed key that is any number of members other than five.", "quantifier": "every key with these columns, for any number of instances and rows (each below 2^64), every byte string, every list of 256-bit words, every hash, membership test and pairing check; every history of both contracts", "why_tests_cant": "tests submit a few honest proofs; the input space is all byte strings and the 1460-line assembly block has thousands of memory accesses", "anchors": ["contracts/Halo2Verifier.sol: verifyProof", "contracts/Halo2VerifyingKey-3-5-18-g2.sol", "contracts/zkdvrf.sol: submitPublicParams (139-157)"]}
{"id": "C59", "title": "The on-chain SNARK verifier decides the Plonk/SHPLONK verification equation", "statement": "For the challenges drawn by Fiat-Shamir from the key digest, the instances and the proof in order (each challenge depending on everything before it), and outside the negligible set of challenges that hit the evaluation domain, verifyProof returns true exactly when the pairing check holds for the SHPLONK linear combination of the proof's and the key's commitments, in which the value of the quotient polynomial at x is the combination by powers of y of: the main gate, the Poseidon gates, the permutation argument over nine columns and five lookup arguments, with the instance column evaluated from all the instances, divided by x^n - 1. With the BN254 pairing: exactly when the combination equals s times the last point, -s g2 being in the key. Every parameter vector stored by the contract came with such a proof.", "quantifier": "every key with these columns over a domain of 2^d rows, d from 2 to 28, and any number of instances (none included), every proof, instance vector and hash function with generic challenges; every history of both contracts", "why_tests_cant": "an omitted or mis-scaled term in the generated code still accepts all honest proofs that tests produce", "anchors": ["contracts/Halo2Verifier.sol: verifyProof", "contracts/zkdvrf.sol: submitPublicParams (139-157)", "src/dkg_circuit.rs: DkgCircuit::configure"]}
{"id": "C60", "title": "The deployed verifying key is well formed", "statement": "The words of Halo2VerifyingKey-3-5-18-g2 are a key, for 49 instances and 2^18 rows: all 32 commitments and the generator are points of G1 and not the identity, the two G2 points are on the twist and the first is the standard generator. In it, and in every key C59 applies to, omega has order exactly the number of rows; n_inv, omega_inv and omega_inv_to_l are the inverses of the number of rows, omega and omega^6; and the labels delta^j omega^i of the nine permuted columns are all different. A key is determined by its words.", "quantifier": "all rows and columns of the domain, every domain of 2^d rows with d from 2 to 28", "why_tests_cant": "tests use the key as given; a wrong root of unity or colliding permutation labels would break soundness, not honest proofs", "anchors": ["contracts/Halo2VerifyingKey-3-5-18-g2.sol: constructor"]}
{"id": "C61", "title": "A proof for an unsatisfied circuit is rejected for all but few challenges", "statement": "Take any circuit with the columns of the deployed one (2^d rows, d from 3 to 28, of which all but the last six usable, five advice columns, the main gate, the Poseidon gates, copies among nine columns, five lookups), any key that commits to its fixed columns and copies, any instances that fit in the rows and any advice columns that violate at least one gate, copy or lookup on some row. Then however the prover chooses its later polynomials and the values it claims, each after the challenges before it, the opening equation checked on chain fails, except for at most: u values of theta, 9u of beta, 18u of gamma (u usable rows), 42 of y, 7n+1 of x, 39 of zeta, 4 of nu, n+7 of mu and n of the secret of the setup, each exceptional set being fixed before that challenge. verifyProof, called with an account holding the key, then reverts, and no history of the contract stores the vector.", "quantifier": "every number of rows 2^d with d from 3 to 28, every circuit with these columns, instance vector, violating advice, choice of prover messages, hash function drawing those challenges, contract history", "why_tests_cant": "tests show that some altered proofs fail; soundness quantifies over all cheating strategies", "anchors": ["contracts/Halo2Verifier.sol: verifyProof", "contracts/Halo2VerifyingKey-3-5-18-g2.sol", "src/dkg_circuit.rs: DkgCircuit::configure", "contracts/zkdvrf.sol: submitPublicParams"]}
{"id": "C62", "title": "A satisfied circuit has an accepted proof for all but few challenges", "statement": "With the same circuits and keys (the copies forming cycles), if the advice columns satisfy the circuit with the instances then the prover has answers: for every theta there are permuted lookup columns, for all but 5u values of beta and 14u of gamma there are running products, for every y a quotient of five pieces, for all x but zero and the rows of the domain claimed values, for every zeta and nu a first opening polynomial and for all mu but four a second one, such that for every secret of the setup the check passes and verifyProof, called with an account holding the key, returns true on the encoding of the proof when the hash draws those challenges.", "quantifier": "every number of rows 2^d with d from 3 to 28, every circuit with these columns, satisfying advice, challenge outside the exceptional sets, secret", "why_tests_cant": "tests prove a handful of witnesses; the claim is for every satisfying witness", "anchors": ["contracts/Halo2Verifier.sol: verifyProof", "contracts/Halo2VerifyingKey-3-5-18-g2.sol", "src/dkg_circuit.rs: DkgCircuit::configure"]}
{"id": "C63", "title": "The on-chain verifier's Poseidon and main gates are the library's", "statement": "The two matrices in the generated verifier's Poseidon gates are the library's MDS matrix and the inverse the library computes. In any circuit the verifier's gates, copies and lookups are satisfied by, a hash laid out in rows as the chip lays it out (initial state from constants, addition of the inputs, four full rounds, fifty-six partial rounds two by a row, four full rounds, with the library's round constants) has in its output cell exactly the key the library derives from the values of its input cells; so a proof whose instances are not such a hash is rejected for all but few challenges. Conversely the region can be filled for every pair of inputs, and the resulting circuit has accepted proofs. The verifier's main gate is, row by row, the equation of the circuit's add, sub, mul, mul_add, add_constant, neg_with_constant, invert, constant, bit and select instructions.", "quantifier": "every circuit, number of rows, placement of the region, instance vector, advice assignment and pair of inputs", "why_tests_cant": "the gates must force the hash for every assignment a prover may choose; tests run the honest one", "anchors": ["contracts/Halo2Verifier.sol: verifyProof", "src/poseidon/bn256.rs: MDS, MDS_INV, ROUND_CONSTANTS", "src/poseidon.rs: P128Pow5T3Bn", "src/dkg_circuit.rs: DkgCircuitConfig::new"]}
{"id": "C64", "title": "The older verifier with the key in its code decides the same argument, for another key", "statement": "verifyProof of contracts/Halo2Verifier-3-5-g2.sol returns true or reverts on every input, accepts only the unique encoding of a proof and 49 instances, and, for challenges outside the degenerate set, accepts exactly when the opening equation holds for the challenges drawn from the transcript: it agrees with the verifier of Halo2Verifier.sol given an account that holds the same key. The key in its code is well formed (every point on its curve and not the identity, the domain of 2^18 rows) but is not the key of Halo2VerifyingKey-3-5-18-g2.sol: it has another digest and belongs to another trusted setup.", "quantifier": "every byte string, list of 256-bit words, hash function, membership test and pairing check", "why_tests_cant": "the generated assembly must be right on every calldata; tests try a few proofs, and no test uses this contract", "anchors": ["contracts/Halo2Verifier-3-5-g2.sol: verifyProof", "contracts/Halo2VerifyingKey-3-5-18-g2.sol: constructor"]}
{"id": "C65", "title": "The demo of the README ends with the right keys and the right randoms", "statement": "Running the demo (yarn admin, yarn member, then any number of rounds of yarn random) from a freshly deployed contract and a prepared working directory, every script finishes: the admin finds no difference between its keys and the contract's, the contract is ready with the wallets as members in order, its group key and verification keys are those of the secret the members' dealings add up to, every member's share file holds its share, and every round in which at least the threshold of members submit before the admin looks gets the random 'round input hashed to the curve, to the power of the group secret', which the contract returns for that round. Members that come after the random are refused without effect; with fewer submissions than the threshold the admin goes on waiting; a member's key-generation script started before startNidkg is refused.", "quantifier": "every group (number, threshold, secrets, dealings, wallets), number of rounds, number of early submitters and draws per round, order of the two listeners of an event, keccak/pairing/JSON library/complete proof system of the required kind", "why_tests_cant": "the demo is run by hand with one configuration and one timing; the claim joins four scripts, the client and the contract over every configuration and every interleaving of listeners", "anchors": ["scripts/demo/admin.ts", "scripts/demo/register.ts", "scripts/demo/nidkg.ts", "scripts/demo/random.ts", "README.md"]}
{"id": "C66", "title": "The lottery demo pays the winner singled out by the third random, whatever the schedule", "statement": "In the lottery demo (deploy, admin and play scripts beside a zkdvrf contract) at most one prize is ever paid; it goes to the player that the random of round 3 singles out among those who entered, in their order of entry, and is all bets (plus ether forced on the contract). If the admin script listens before that random exists and is not interrupted, then once the random exists and the script has handled its events the prize has been paid; it ends early only if nobody entered, the winner refuses, or the announced random is zero. If the play script finishes before round 3 opens, every configured player is in, in order, with a bet of 5 ether. Two lotteries over contracts with the same group key and the same entrants have the same winner. An admin script started after round 3 has opened sets up a lottery nobody can enter or close, and one that is restarted after its setup never pays.", "quantifier": "every schedule of script steps and of calls by others to both contracts, every earlier zkdvrf history, player list, winner's code, either zkdvrf variant", "why_tests_cant": "there is no test of the lottery scripts, and the claim is about every interleaving of two processes, two contracts and strangers", "anchors": ["scripts/lottery/admin.ts", "scripts/lottery/play.ts", "scripts/lottery/deploy.ts", "contracts/lottery.sol"]}
{"id": "C67", "title": "Deployment and start-up give the contract, the services and their client the same configuration, or refuse", "statement": "The deploy script succeeds, without DEPLOY_NO_HELPERS, exactly for THRESHOLD=3, NUMBER_OF_MEMBERS=5 and DEGREE=18, a valid non-zero admin address and a deposit that is a 256-bit number; it then creates the verifying key for these numbers, the verifier, the two helpers and a contract with these numbers, the admin as owner, and each of the other four addresses in its place; the contract expects public parameters of exactly the size that the key is for. A service that starts has the contract's threshold and number of members (and the admin's wallet owns the contract), and runs its client with them and the configured degree, over every history of the contract. With a .env of the contract's numbers and no overrides both services start; with other numbers or none they refuse. If the degree is missing, the client works for 3 out of 5 and degree 18 whatever the contract says; a threshold given on the command line is also taken for the degree, a polling interval also for the interval between rounds; with DEPLOY_NO_HELPERS=true any pair of numbers is deployed.", "quantifier": "every environment and set of overrides, every history of the contract, every address format and sequence of created addresses", "why_tests_cant": "nothing tests the scripts' configuration, and it ranges over every string in the environment", "anchors": ["scripts/deploy.ts", "services/exec/run.ts", "services/exec/runNode.ts", "services/node.ts check_config, cmdPrefix", "services/admin.ts check_config, cmdPrefix"]}
{"id": "C68", "title": "A node service, run on a shared contract and stopped or killed at any point, keeps the key it registered", "statement": "Start the service of an address that is not registered, on any files, on a contract others use at the same time, and let it poll, send transactions, wait, be killed in the middle of a write, end and be started again. (1) As long as it is not started while a registration of its own is pending, the key the contract has for the node, if any, is always the one whose secret is in its member file; it never has more than one registration pending, and that one, without a deposit, is going to be accepted. (2) Undisturbed, an added node is registered under the key of its member file and the service goes on. (3) A registration or dealing the contract would have accepted when it was made is still accepted whenever it is executed, unless the same account has done it meanwhile; an evaluation, if the round has no random and has not been left by then - otherwise it is refused. (4) What does go wrong: started again while a registration is pending, the service draws a second key and overwrites the first one's secret, the contract keeps the first key and the service ends; a service that polls again before its dealing is executed makes a second one and ends although the first is accepted; an evaluation that is executed after the random of its round ends the service.", "quantifier": "every interleaving of polls, inclusions, other accounts' transactions, kills, stops and restarts; both contracts; every environment, history, file system and random draw", "why_tests_cant": "the failures need a particular schedule of two processes and a chain; the invariant ranges over all of them and over all crash points", "anchors": ["services/node.ts _start, register, submitPP, derive, createAndSubmitEval", "contracts/zkdvrf.sol registerNode, submitPublicParams, submitPartialEval"]}
{"id": "C69", "title": "The admin service, run on a shared contract and stopped or killed at any point, sends only transactions that are accepted, or fails in three known ways", "statement": "Start the service of the contract's owner, on a contract others use at the same time, and let it add nodes, poll, act, wait, be killed in the middle of a write, end and be started again (not while a transaction of its own is pending). (1) It has at most one transaction pending and the loop waits for it. (2) A pending startNidkg is accepted whenever it is executed, and so is the addition of a node named in its options, if they do not name more than the contract takes; a pending random too, with the value the group key determines, unless somebody else computed the keys; a pending computeVk exactly if nobody else has called it; a pending initiation exactly if the last round has its random. (3) An iteration that decided to combine finds the random of the round if the accepted evaluations are canonical and the files hold the contract's keys; a service that was ended in a round with enough evaluations, started again, completes the round. (4) Without a restart in between, a round is asked for at least the interval after the last one was opened. (5) Started again in an unfinished round with too few evaluations, the service can ask for a new round at once, because it has forgotten the time of the last; the call is refused and the service ends. (6) Undisturbed, it adds every node it was given, starts the NIDKG when all have registered, and opens the first round when the keys are there and the start date has passed.", "quantifier": "every interleaving of the service's steps, inclusions, other accounts' transactions, kills, stops and restarts, every clock; both contracts; every environment, history, options and file system", "why_tests_cant": "which calls are refused depends on the schedule of the service, the chain and everybody else; the invariant ranges over all of them and over all crash points", "anchors": ["services/admin.ts _init, _start, check_config, createGpp, initiateRand, createRandom", "contracts/zkdvrf.sol addPermissionedNodes, startNidkg, computeVk, initiateRandom, submitRandom"]}
