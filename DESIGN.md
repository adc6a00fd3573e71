# Formal model of bobanetwork/zkdvrf in Rocq (Coq 8.16.1)

## 1. Layout

`rocq/theories/`

| directory | content |
|---|---|
| `Base/` | mathematics that is not code: primality certificates, prime fields, F_q2, polynomials, square roots, the elliptic-curve group law, prime order of the three groups |
| `Model/` | the code, function by function, as executable Gallina, no proofs; every definition cites file:lines |
| `Spec/` | small independent specifications used in theorem statements |
| `Proofs/` | lemmas |
| `Props/` | only the property theorems (named `Cnn_*`), `Print Assumptions`, and a concrete case beside each theorem that meets its hypotheses |

What a reader of a statement needs: the statement in `Props/`, the `Spec/` file it names, and the `Model/` function it
is about. `MANIFEST.json` lists every theorem per property; a theorem named `*_refuted`, or described as a finding in
section 5, proves that the code does *not* do something one would expect.

`tools/` holds the generators of `ModExp.v`'s addition chains, of the Poseidon constants, of the verifier's program and of the
certificates that the key's points are on the curve (transcription of literals
in /repo; no proof depends on a generator being right about anything but the text it copies).
`seeded/LOG.jsonl` records the mutation tests.

## 2. Modelling decisions

* Field elements are canonical integers modulo the *actual* BN254 primes; primality is proved (Pocklington).
* Affine points are as in halo2curves and EIP-196: pairs `(x,y)` with `(0,0)` the identity. BN254 G1, the twist
  G2 over F_q2 and Grumpkin are concrete; the group law (associativity included), the prime order of the generated
  subgroups and cyclicity are proved, so `g*s`, `h*sk`, precompiles 6/7, the chip's scalar multiplications are one
  concrete function.
* The pairing check is any boolean function that behaves as EIP-197 says (`pairing_ok`: the sum of products of discrete
  logarithms vanishes); `PairingExists.v` shows one exists.
* External functions are *parameters of theorems* (section variables / records): keccak256, BLAKE2b, the Halo2 proving
  system, JSON text formats, randomness. Nothing is assumed of them unless the statement says so, and each such
  hypothesis is met by a concrete instance beside the theorem.
* Solidity contracts are state machines `step : env -> state -> call -> result`; a revert is an explicit error that
  leaves the state unchanged; checked arithmetic reverts; mappings are total functions; histories are arbitrary lists
  of transactions from arbitrary senders with arbitrary values.
* A Rust panic / failed `assert!` is a value (`Panic`) distinct from `Err`.
* Files: a directory is a map from names to contents; a write may be cut short by a kill at any byte (`Files.v`).
* Circuits: a free monad of assignments/constraints (`Circ.v`) with two readings: `honest`, the witness the prover's
  code computes, and `sem`, every assignment a malicious prover may choose; `satisfiable`/`accepts` quantify over the
  latter.

## 3. Properties: what is modelled, how it is proved

| id | model (file in `Model/` -> code) | statement in | proof |
|---|---|---|---|
| C01-C09 | `Dkg.v`, `Lib.v` -> `dkg.rs`, `lib.rs` over the concrete groups | P_Dvrf | Lagrange interpolation, Diffie-Hellman, Schnorr/DLEQ algebra; C05 also for the circuit (P_Circuit) |
| C10, C11 | `check_indices`, `combine_partial_evaluations`, `DkgConfig` | P_Dvrf | induction on lists |
| C12, C13 | `point_to_public` & co, `instance`/`from_instance`; `GppSol.v` `readBnG1` | P_Onchain | radix arithmetic, induction on n |
| C14, C15 | `dkg_global_public_params`; `GppSol.v` `createGpp` | P_Dvrf, P_Onchain | permutation invariance, differential equality |
| C16, C17 | `PartialEval::verify`, `PseudoRandom::verify`; `PseudoRandSol.v`, `PairingSol.v` | P_Onchain | differential equality |
| C18, C19 | `HashEvm.v` -> `hash_to_curve_evm.rs`; `HashSol.v`, `ModExp.v` -> `Hash.sol`, `ModExp.sol` | P_Dvrf, P_Onchain | Fouque-Tibouchi map identity, Euler criterion, reflected addition chain |
| C20 | `HashGrumpkin.v` -> `hash_to_curve.rs` | P_Svdw | equality with RFC 9380 written independently in `Spec/Svdw.v` |
| C21, C22 | `Serialise.v` -> `bin/serialise.rs` | P_Serial | radix arithmetic |
| C23-C25, C54 | `Client.v`, `Files.v` -> `bin/client.rs`, `bin/mock.rs` | P_Client | commands as file-system transformers; C54 composes them |
| C26-C37 | `Zkdvrf.v` -> `zkdvrf.sol`, `zkdvrf_pre.sol` | P_Contract, P_ContractDemo | inductive invariants over all histories |
| C38 | both contracts | P_Refine | simulation |
| C39, C40 | `Lottery.v` -> `lottery.sol` | P_Lottery | invariants with re-entrancy; Fisher-Yates bijection |
| C41, C42 | `Circ.v`, `MainGate.v`, `DkgCircuit.v` -> `dkg_circuit.rs` | P_Circuit, P_Poison, P_Malicious | exactness (iff), uniqueness, characterisation and rarity of the exceptional cases |
| C43 | `GrumpkinChip.v` -> `grumpkin_chip*.rs` | P_Chips | double-and-add loop invariant; underconstrained cases exhibited |
| C44, C45 | `FixedBase.v`, `IntegerChip.v` -> `ecc_chip*.rs` | P_Chips, P_FixedBase | window invariant over G1 and G2; F_q2 algebra |
| C46 | `Poseidon.v`, `PoseidonConsts.v` -> `poseidon*.rs` | P_Poseidon | bijection, gate/primitive equality, constants = `Spec/Grain.v` generator |
| C47, C48 | `Cache.v` -> `utils.rs`, parameter/key cache of `client.rs`/`proof.rs` | P_Cache | invariant over all sequences of uses killed anywhere |
| C49, C50 | `Services.v` -> `services/node.ts`, `services/admin.ts` | P_Services, P_Admin, P_NodeDealing, P_NodeEval, P_NodeFirst | runs of contract + services; refutations where the code fails; what a submitted dealing is (C49_dealing_valid), what a submitted evaluation and a submitted group key are (C49_evaluation_valid, C49_first_evaluation_valid, C49_sent_accepted, C50_keys_derived), by inversion of the program over any reachable parameter directory |
| C51 | generic short Weierstrass curve, `CurveCerts.v` | P_Curves | algebraic proof of the group law, certificates |
| C52, C53 | contract state machines instantiated with the models of the Solidity libraries (`RealEnv.v`) | P_EndToEnd, P_Live | history invariants + agreement; forward simulation of an honest run |
| C55 | `Client.v` dkg prove/verify, `Cache.v` | P_Prove | case analysis over file-system runs |
| C56 | `Dkg.v` `get_index`/keylist | P_Members | induction on lists |
| C57 | circuit + client aggregation | P_Malicious | C42 soundness lifted through `dkg_global_public_params` |
| C58, C59 | `Yul.v` (EVM assembly), `Halo2VerifierSol.v` (all 1460 lines of the assembly block, transcribed by `tools/gen_yul.py`), `VerifierCall.v` (ABI call) -> `Halo2Verifier.sol`; lifted to `zkdvrf.sol` through `RealEnv.v` | P_Verifier; what it should check is in `Spec/Plonk.v`, `Spec/PlonkVerifier.v`, `Spec/PlonkCall.v` | the program is run symbolically (`YulSym.v`, `YulCon.v`: abstract machines with a proved simulation into the EVM machine), the resulting expressions are identified with the specification by field and group algebra. For every key with 23 + 9 columns, any number of instances and 2^d rows: the loops whose length the key decides (hashing the instances, x^n, the Lagrange values, their batch inversion) are handled by induction on their number of rounds (`VerifierHead.v`, `VerifierLagRun.v`, `VerifierBatch.v`, `VerifierLagAlg.v`) |
| C60 | `vk_code` (`Halo2VerifierSol.v`) -> `Halo2VerifyingKey-3-5-18-g2.sol` | P_Verifier | certificates for the curve equations (`tools/gen_vkcert.py`), modular powers |
| C61, C62 | the verifier of C58-C60, any number of rows 2^d with 3 <= d <= 28 | P_Plonk; a circuit is rows, copies and lookups (`Spec/PlonkCircuit.v`), the conversation with the prover is `Spec/PlonkSound.v`, "all but n values" is `Spec/Few.v` | soundness: one failing row, copy or lookup survives each challenge except for boundedly many values (roots of nonzero polynomials; grand products as monic polynomials), down to the opening equation. Completeness: sorted lookup columns, running products, division by X^n - 1 and by the opening points give the honest messages |
| C63 | gates of `Spec/Plonk.v` (those of `Halo2Verifier.sol` by C59) against `Poseidon.v`, `MainGate.v` -> `poseidon*.rs`, `dkg_circuit.rs:55-76` | P_Gates; the rows and copies of a hash are `Spec/PlonkRegions.v` (layout of halo2_gadgets' Pow5Chip) | the inverse matrix by uniqueness; rows of a region by induction on rounds; one explicit circuit filled for every input |
| C64 | `Halo2VerifierOldSol.v` (the assembly block and the embedded key, transcribed by `tools/gen_yul.py`), `VerifierOldCall.v` -> `Halo2Verifier-3-5-g2.sol` | P_VerifierOld; same specification as C58, C59 | the same symbolic evaluation; variables the block does not mention can be added (`run_fresh`) and the calldata shifted by the missing key argument (`run_down`), which makes the two blocks comparable; key certificates as for C60 |
| C65 (and C49_submits) | `Demo.v` -> `scripts/demo/{admin,register,nidkg,random}.ts` (listeners as programs over files, chain and event log; where two listeners of one event exist either order) | P_Demo; what the directory must contain and what a round's random is: `Spec/DemoSpec.v` | invariants `keyed`, `idle` of the world (files written so far + history of the contract), one lemma per script, induction on members and on rounds; events found by folding over the log |
| C66 | `LotteryDemo.v` -> `scripts/lottery/{deploy,admin,play}.ts` on top of `Lottery.v`: processes as small steps, a schedule is a list of moves | P_LotteryDemo; what others may do and who should win: `Spec/LotteryDemoSpec.v` | invariants over all schedules (`LotteryDemoProofs.v`): order of entry, event in the inbox or paid, players gone through have entered; C39 and C52 for the prize and the uniqueness of the random |
| C67 | `Startup.v` -> `scripts/deploy.ts`, `services/exec/{run,runNode}.ts`, start of `services/{node,admin}.ts`: parsing of the environment, configuration, checks, the client's environment, contracts created | P_Startup; histories: `Spec/Histories.v`; the client's reading: `Client.get_config` (C23) | case analysis of the readers; the contract's numbers are those of its constructor in every history (`ZkdvrfInv1`); uniqueness of the key file's name; C60 for the size of the key |
| C68 | `ServiceRun.v` -> `services/node.ts` 65-127, the loop: polls, pending transactions, waits, unhandled rejections, restarts; other accounts' transactions in between | P_Run; histories: `Spec/Histories.v`; reading a member file: `Spec/ClientSpec.v` | an invariant over all schedules (`RunProofs`); stability of acceptance along histories (`Stable`); the runs that go wrong are built move by move; simplifications in the header of `ServiceRun.v` (the wallet is used by the service only, transactions are included in the order of their nonces, RPC failures end or kill the process) |
| C69 | `AdminRun.v` -> `services/admin.ts` 75-212, `_init` and `_start`: start-up checks, additions, iterations, awaited transactions, the interval, restarts; other accounts' transactions in between | P_AdminRun; histories: `Spec/Histories.v`; files: `Spec/CacheSpec.v` | an invariant over all schedules (`AdminInv`), what can change under the service's feet (`AdminDrift`: anyone may call computeVk; otherwise only evaluations arrive); the runs in (3) and (5) are built move by move; simplifications in the header of `AdminRun.v` |

## 4. Trusted base

* **Coq's kernel** (8.16.1; no VM/native in `coqchk`). No flag that weakens it is used.
* **Axioms: none.** Every `Props/*.v` file ends with `Print Assumptions` for its theorems; each answers
  "Closed under the global context". (`coqchk` additionally lists the `Coq.ssr.ssrunder` module-type axioms of the
  standard library whenever ssreflect files are loaded; no theorem depends on them.)
* **The model is faithful to /repo.** It was written by reading; it is not extracted from or linked to the code. Each
  definition cites the lines it models and says where it simplifies. Mutation testing (section 6) checks that theorems
  constrain the model, not that the model equals the code.

### Dependency code that is modelled (by specification, trusted to be what the crate/EVM does)

| dependency | as modelled |
|---|---|
| halo2curves fields, points | canonical residues; `from_xy` accepts `(0,0)` as identity and otherwise checks the equation; `to_bytes`/`from_bytes` little-endian 32 bytes, rejecting >= p; `sqrt` the documented root (q, r = 3 mod 4 / Tonelli for r) |
| halo2wrong `Integer`/`Rns` | four 68-bit limbs; `IntegerChip`, `BaseFieldEccChip`, `MainGate`, `Layouter` by their contracts (range, equality mod q, incomplete addition asserts); decomposition admits any 254-bit representative, as in the crate |
| halo2_gadgets Poseidon primitive and `Pow5Chip` | modelled round by round and proved equal (C46) |
| halo2 prover/verifier | the prover is abstract; where a statement about the client or the circuit needs it, soundness is a *hypothesis* "accepted => circuit satisfiable" (C55 meaning, C57). The generated on-chain verifier is modelled in full (C58-C60); that it is sound and complete for circuits its key commits to is proved (C61, C62) for provers whose commitments are to polynomials fixed before the later challenges and before the secret of the setup (the algebraic, interactive idealisation: knowledge of exponent and the random oracle are not modelled) |
| Yul / EVM assembly (`Yul.v`) | words modulo 2^256, word-addressed memory (an unaligned access is `Stuck`, proved never to happen), blocks, functions, loops, `staticcall` to the precompiles, `extcodecopy`, `keccak256` |
| EVM precompiles 5, 6, 7, 8 | EIP-198/196/197, including rejection of coordinates >= q and points off the curve; gas is not modelled |
| keccak256 | any function into [0, 2^256) ; BLAKE2b any function to 64 bytes |
| serde_json, hex, bincode-like key formats | any codec that reads back what it wrote and reads no proper prefix (JSON); hex concrete |
| ParamsKZG file format | concrete header + points |
| ethers v5 / hardhat | `BigNumber`s as integers, JavaScript string comparison of decimals where the code compares strings |
| rand/OsRng | universally quantified scalars |

### Not modelled

* `benches/`, `examples/`, `test/`, `ops/`, docker and shell scripts; `scripts/utils.ts`
  (`scripts/demo` and `scripts/lottery` are modelled: C65, C66; `scripts/deploy.ts`: C67).
* The `setup` command of `bin/client.rs` (generation of Solidity verifiers through `snark-verifier`) and
  `create_dir_all`.
* Event subscription, RPC failures, gas and transaction ordering inside a block in the services; a service step is
  "sees contract state, runs commands, sends one transaction".
* Concurrency of two client processes on the same directory (a kill at any byte is modelled).
* Cryptographic hardness (DDH, random oracle, knowledge soundness): statements are about functional behaviour; C07 is
  information-theoretic; C09 is special soundness.
* That the commitments in the two verifying keys are those of the DKG circuit (it would need the structured reference string).
* Halo2's prover; side channels; memory safety.

## 5. Findings (each a theorem, unless marked "read")

1. `zkdvrf.submitRandom` works at round 0, before `Ready`, and needs no on-chain threshold (C37_plain_*).
2. README says evaluations need not be sorted; `combine` rejects unsorted ones (C10).
3. The node service compares round numbers as strings and stalls at round ten (C49_stalls_at_ten, C49_deadlock*).
4. `registerNode` accepts non-canonical and duplicate public keys (C27_non_canonical_key, C56_repeated).
5. The contract accepts a non-reduced `z` that the client's JSON reader rejects: a member can stop the admin (C16_z_malleable, C50_noncanonical).
6. A member can replay another member's parameter vector (C28_replay_possible).
7. `getIndexPlus(non-member)` is 1 (C27_index_of_stranger).
8. `load_or_create_params` above degree 22, or with a foreign header, returns wrong parameters (C47_*_refuted).
9. The circuit accepts coordinates encoded as x+q; such an accepted submission makes `computeVk`/`createGpp` revert for ever (C42_poison, C42_poison_exists, C42_poison_blocks).
10. The honest prover fails when a secret, share or ephemeral product is zero or an auxiliary coincidence occurs; these are characterised and rare (C41_*).
11. Lottery: re-entrant `pickWinner`, refusing winner (C39_*).
12. `hash_to_curve` panics for domain prefixes >= 223 bytes (C20).
13. `point2 double` asserts x <> 0 instead of y (C44_double2).
14. Grumpkin chip: `mul` by a scalar cell accepts s*P and (s+r)*P; `add_incomplete` leaves the result free on equal inputs (C43_mul_scalar, C43_add_incomplete_underconstrained).
15. Poseidon runs 56 partial rounds with constants generated for 57 (C46_grain, C46_not_56_refuted).
16. `dkg derive` writes gpk/vks before validating the member index (C24_order); `rand combine` aborts on a duplicate or out-of-range index instead of skipping it (C23_*).
17. The node registers with value 0, so it fails on a contract with a deposit (C49); the admin initiates early and always names five nodes (C50_early_initiation, C50_start_too_many).
18. A random whose hash is 0 is stored but unreadable (C34/C53 side condition). `getLatestRandom` at round 0 panics by underflow.
19. Read: deposits can never be withdrawn; the constructor does not check 0 < t <= n; `fix_mul` with exactly two windows would add row 0 twice (unreachable sizes).
20. `Halo2Verifier.verifyProof` never returns false: it returns true or reverts without a message, so "SNARK proof verification failed" in `submitPublicParams` is unreachable (C58_true_or_revert).
21. A verifying key is for one number of instances, 49 in the deployed one, so a contract deployed with it and any member count other than 5 (for another key, other than (instances - 14)/7) can never leave the key-generation phase (C58_only_five, C58_only_its_size, C58_other_sizes_stuck); nothing checks this at deployment.
22. The verifier rejects proofs containing the identity point, which an honest prover's commitment to a zero polynomial would be (C58_accepts_encodings; the circuit has no such column).
23. `Halo2Verifier-3-5-g2.sol` embeds a verifying key with another digest and another trusted setup than `Halo2VerifyingKey-3-5-18-g2.sol`, under the same contract name: a proof for one is not a proof for the other (C64_keys_differ).
24. `random.ts` submits the members' evaluations one after the other while the admin answers at the threshold: the later members' transactions are refused and their script stops (C65_late_member). `nidkg.ts` does not wait for the admin's `startNidkg` and is refused when it runs first (C65_too_early).
25. Read: with `RESTART=true`, `admin.ts` listens neither to `NidkgCompleted` nor to `GlobalPublicParamsCreated`, so a restart before the first round never initiates it.
26. `Lottery.setup` does not check that the chosen round is still to come: `admin.ts` of the lottery (round 3, fixed) started after round 3 opened leaves a lottery that nobody can ever enter, close or set up again (C66_too_late). The script cannot be restarted after its setup, since setup reverts before the listener is attached: the prize then has to be released by hand (C66_restart).
27. `deploy.ts` works for 3, 5 and 18 only: no other key file exists (C67_deploy); with DEPLOY_NO_HELPERS=true nothing ties the numbers to the key or to each other (C67_no_helpers). The services never check DEGREE: without it their client silently works for 3 out of 5 and degree 18 (C67_degree_missing); `run.ts` and `runNode.ts` read the degree from the configuration key `threshold`, `run.ts` the interval between rounds (seconds) from `polling-interval` (milliseconds) (C67_degree_is_threshold, C67_interval_is_polling).
28. A node service that is restarted while its registration is pending registers a second key: `register` always draws a new key and overwrites the member file, which then no longer has the secret of the key the contract accepts, and the node's shares cannot be decrypted any more (C68_restart_loses_key).
29. `submitPP` calls `resPP.wait()` without `await` (node.ts:240): unless the dealing is mined within one polling interval, the service makes another, and the revert of the second one, an unhandled rejection, ends the process although the first was accepted (C68_second_dealing).
30. An evaluation that is mined after the admin has submitted the round's random reverts, and the rejected `wait` ends the node service; with the threshold t < n that is a normal race (C68_evaluation_race).
31. `timeOfLastRound` is 0 in a restarted admin service (admin.ts:96): in a round that is not finished it asks for a new one in the first iteration after the start date; `initiateRandom` reverts and the process ends (C69_restart_unfinished). It comes back only when enough evaluations are there (C69_recovers).
32. `computeVk` is not restricted to the owner: when somebody else calls it between the admin's decision and the inclusion of its own transaction, that one reverts and ends the admin service (C69_keys); an admin that was killed before it wrote its key files never derives them again once the contract is `Ready`, and cannot combine (read).

## 6. Mutation tests

Each line of `seeded/LOG.jsonl` is one edit of a `Model/` definition made in a scratch copy, with the theorems that then
failed. Survivors led to stronger theorems (field `tightened`) or are explained as equivalent.
