(** Generated by tools/gen_yul.py from contracts/Halo2Verifier.sol and contracts/Halo2VerifyingKey-3-5-18-g2.sol: do not edit.
    The assembly block of verifyProof (Halo2Verifier.sol:72-1535), statement by statement; named memory and calldata positions
    (lines 6-65) are replaced by their values. *)
From Coq Require Import ZArith List String.
From Verif.Model Require Import Yul.
Import ListNotations.
Open Scope string_scope.
Open Scope Z_scope.

(** Halo2Verifier.sol:77-87 *)
Definition fn_read_ec_point : func := Func ["success"; "proof_cptr"; "hash_mptr"; "q"] ["ret0"; "ret1"; "ret2"]
  [Let ["x"] (E (Cdload (Var "proof_cptr")));
   Let ["y"] (E (Cdload (Bin ADD (Var "proof_cptr") (Num 0x20))));
   Set_ ["ret0"] (E (Bin AND (Var "success") (Bin LT (Var "x") (Var "q"))));
   Set_ ["ret0"] (E (Bin AND (Var "ret0") (Bin LT (Var "y") (Var "q"))));
   Set_ ["ret0"] (E (Bin AND (Var "ret0") (Bin EQ (Ter MULMOD (Var "y") (Var "y") (Var "q")) (Ter ADDMOD (Ter MULMOD (Var "x") (Ter MULMOD (Var "x") (Var "x") (Var "q")) (Var "q")) (Num 3) (Var "q")))));
   Mstore (Var "hash_mptr") (Var "x");
   Mstore (Bin ADD (Var "hash_mptr") (Num 0x20)) (Var "y");
   Set_ ["ret1"] (E (Bin ADD (Var "proof_cptr") (Num 0x40)));
   Set_ ["ret2"] (E (Bin ADD (Var "hash_mptr") (Num 0x40)))].

(** Halo2Verifier.sol:93-99 *)
Definition fn_squeeze_challenge : func := Func ["challenge_mptr"; "hash_mptr"; "r"] ["ret0"; "ret1"]
  [Let ["hash"] (E (Keccak (Num 0x00) (Var "hash_mptr")));
   Mstore (Var "challenge_mptr") (Bin MOD (Var "hash") (Var "r"));
   Mstore (Num 0x00) (Var "hash");
   Set_ ["ret0"] (E (Bin ADD (Var "challenge_mptr") (Num 0x20)));
   Set_ ["ret1"] (E (Num 0x20))].

(** Halo2Verifier.sol:106-112 *)
Definition fn_squeeze_challenge_cont : func := Func ["challenge_mptr"; "r"] ["ret"]
  [Mstore8 (Num 0x20) (Num 0x01);
   Let ["hash"] (E (Keccak (Num 0x00) (Num 0x21)));
   Mstore (Var "challenge_mptr") (Bin MOD (Var "hash") (Var "r"));
   Mstore (Num 0x00) (Var "hash");
   Set_ ["ret"] (E (Bin ADD (Var "challenge_mptr") (Num 0x20)))].

(** Halo2Verifier.sol:116-159 *)
Definition fn_batch_invert : func := Func ["success"; "mptr_start"; "mptr_end"; "r"] ["ret"]
  [Let ["gp_mptr"] (E (Var "mptr_end"));
   Let ["gp"] (E (Mload (Var "mptr_start")));
   Let ["mptr"] (E (Bin ADD (Var "mptr_start") (Num 0x20)));
   For [] (Bin LT (Var "mptr") (Bin SUB (Var "mptr_end") (Num 0x20))) []
   [Set_ ["gp"] (E (Ter MULMOD (Var "gp") (Mload (Var "mptr")) (Var "r")));
   Mstore (Var "gp_mptr") (Var "gp");
   Set_ ["mptr"] (E (Bin ADD (Var "mptr") (Num 0x20)));
   Set_ ["gp_mptr"] (E (Bin ADD (Var "gp_mptr") (Num 0x20)))];
   Set_ ["gp"] (E (Ter MULMOD (Var "gp") (Mload (Var "mptr")) (Var "r")));
   Mstore (Var "gp_mptr") (Num 0x20);
   Mstore (Bin ADD (Var "gp_mptr") (Num 0x20)) (Num 0x20);
   Mstore (Bin ADD (Var "gp_mptr") (Num 0x40)) (Num 0x20);
   Mstore (Bin ADD (Var "gp_mptr") (Num 0x60)) (Var "gp");
   Mstore (Bin ADD (Var "gp_mptr") (Num 0x80)) (Bin SUB (Var "r") (Num 2));
   Mstore (Bin ADD (Var "gp_mptr") (Num 0xa0)) (Var "r");
   Set_ ["ret"] (AndStatic (Var "success") (Num 0x05) (Var "gp_mptr") (Num 0xc0) (Var "gp_mptr") (Num 0x20));
   Let ["all_inv"] (E (Mload (Var "gp_mptr")));
   Let ["first_mptr"] (E (Var "mptr_start"));
   Let ["second_mptr"] (E (Bin ADD (Var "first_mptr") (Num 0x20)));
   Set_ ["gp_mptr"] (E (Bin SUB (Var "gp_mptr") (Num 0x20)));
   For [] (Bin LT (Var "second_mptr") (Var "mptr")) []
   [Let ["inv"] (E (Ter MULMOD (Var "all_inv") (Mload (Var "gp_mptr")) (Var "r")));
   Set_ ["all_inv"] (E (Ter MULMOD (Var "all_inv") (Mload (Var "mptr")) (Var "r")));
   Mstore (Var "mptr") (Var "inv");
   Set_ ["mptr"] (E (Bin SUB (Var "mptr") (Num 0x20)));
   Set_ ["gp_mptr"] (E (Bin SUB (Var "gp_mptr") (Num 0x20)))];
   Let ["inv_first"] (E (Ter MULMOD (Var "all_inv") (Mload (Var "second_mptr")) (Var "r")));
   Let ["inv_second"] (E (Ter MULMOD (Var "all_inv") (Mload (Var "first_mptr")) (Var "r")));
   Mstore (Var "first_mptr") (Var "inv_first");
   Mstore (Var "second_mptr") (Var "inv_second")].

(** Halo2Verifier.sol:163-167 *)
Definition fn_ec_add_acc : func := Func ["success"; "x"; "y"] ["ret"]
  [Mstore (Num 0x40) (Var "x");
   Mstore (Num 0x60) (Var "y");
   Set_ ["ret"] (AndStatic (Var "success") (Num 0x06) (Num 0x00) (Num 0x80) (Num 0x00) (Num 0x40))].

(** Halo2Verifier.sol:170-173 *)
Definition fn_ec_mul_acc : func := Func ["success"; "scalar"] ["ret"]
  [Mstore (Num 0x40) (Var "scalar");
   Set_ ["ret"] (AndStatic (Var "success") (Num 0x07) (Num 0x00) (Num 0x60) (Num 0x00) (Num 0x40))].

(** Halo2Verifier.sol:177-181 *)
Definition fn_ec_add_tmp : func := Func ["success"; "x"; "y"] ["ret"]
  [Mstore (Num 0xc0) (Var "x");
   Mstore (Num 0xe0) (Var "y");
   Set_ ["ret"] (AndStatic (Var "success") (Num 0x06) (Num 0x80) (Num 0x80) (Num 0x80) (Num 0x40))].

(** Halo2Verifier.sol:185-188 *)
Definition fn_ec_mul_tmp : func := Func ["success"; "scalar"] ["ret"]
  [Mstore (Num 0xc0) (Var "scalar");
   Set_ ["ret"] (AndStatic (Var "success") (Num 0x07) (Num 0x80) (Num 0x60) (Num 0x80) (Num 0x40))].

(** Halo2Verifier.sol:192-207 *)
Definition fn_ec_pairing : func := Func ["success"; "lhs_x"; "lhs_y"; "rhs_x"; "rhs_y"] ["ret"]
  [Mstore (Num 0x00) (Var "lhs_x");
   Mstore (Num 0x20) (Var "lhs_y");
   Mstore (Num 0x40) (Mload (Num 0x0860));
   Mstore (Num 0x60) (Mload (Num 0x0880));
   Mstore (Num 0x80) (Mload (Num 0x08a0));
   Mstore (Num 0xa0) (Mload (Num 0x08c0));
   Mstore (Num 0xc0) (Var "rhs_x");
   Mstore (Num 0xe0) (Var "rhs_y");
   Mstore (Num 0x100) (Mload (Num 0x08e0));
   Mstore (Num 0x120) (Mload (Num 0x0900));
   Mstore (Num 0x140) (Mload (Num 0x0920));
   Mstore (Num 0x160) (Mload (Num 0x0940));
   Set_ ["ret"] (AndStatic (Var "success") (Num 0x08) (Num 0x00) (Num 0x180) (Num 0x00) (Num 0x20));
   Set_ ["ret"] (E (Bin AND (Var "ret") (Mload (Num 0x00))))].

Definition functions : list (string * func) := [("read_ec_point", fn_read_ec_point); ("squeeze_challenge", fn_squeeze_challenge); ("squeeze_challenge_cont", fn_squeeze_challenge_cont); ("batch_invert", fn_batch_invert); ("ec_add_acc", fn_ec_add_acc); ("ec_mul_acc", fn_ec_mul_acc); ("ec_add_tmp", fn_ec_add_tmp); ("ec_mul_tmp", fn_ec_mul_tmp); ("ec_pairing", fn_ec_pairing)].

(** Halo2Verifier.sol:210 *)
Definition main_00 : stmt := Let ["q"] (E (Num 21888242871839275222246405745257275088696311157297823662689037894645226208583)).

(** Halo2Verifier.sol:211 *)
Definition main_01 : stmt := Let ["r"] (E (Num 21888242871839275222246405745257275088548364400416034343698204186575808495617)).

(** Halo2Verifier.sol:214 *)
Definition main_02 : stmt := Let ["success"] (E (Num 1)).

(** Halo2Verifier.sol:216-358 *)
Definition main_03 : stmt := Block [Extcodecopy (Var "vk") (Num 0x06c0) (Num 0x00) (Num 0x40);
   Set_ ["success"] (E (Bin AND (Var "success") (Bin EQ (Num 0x1180) (Cdload (Num 0x64)))));
   Let ["num_instances"] (E (Mload (Num 0x06e0)));
   Set_ ["success"] (E (Bin AND (Var "success") (Bin EQ (Var "num_instances") (Cdload (Num 0x1204)))));
   Mstore (Num 0x00) (Mload (Num 0x06c0));
   Let ["hash_mptr"] (E (Num 0x20));
   Let ["instance_cptr"] (E (Num 0x1224));
   For [Let ["instance_cptr_end"] (E (Bin ADD (Var "instance_cptr") (Bin MUL (Num 0x20) (Var "num_instances"))))] (Bin LT (Var "instance_cptr") (Var "instance_cptr_end")) []
   [Let ["instance"] (E (Cdload (Var "instance_cptr")));
   Set_ ["success"] (E (Bin AND (Var "success") (Bin LT (Var "instance") (Var "r"))));
   Mstore (Var "hash_mptr") (Var "instance");
   Set_ ["instance_cptr"] (E (Bin ADD (Var "instance_cptr") (Num 0x20)));
   Set_ ["hash_mptr"] (E (Bin ADD (Var "hash_mptr") (Num 0x20)))];
   Let ["proof_cptr"] (E (Num 0x84));
   Let ["challenge_mptr"] (E (Num 0x1160));
   For [Let ["proof_cptr_end"] (E (Bin ADD (Var "proof_cptr") (Num 0x0140)))] (Bin LT (Var "proof_cptr") (Var "proof_cptr_end")) []
   [Set_ ["success"; "proof_cptr"; "hash_mptr"] (Call "read_ec_point" [(Var "success"); (Var "proof_cptr"); (Var "hash_mptr"); (Var "q")])];
   Set_ ["challenge_mptr"; "hash_mptr"] (Call "squeeze_challenge" [(Var "challenge_mptr"); (Var "hash_mptr"); (Var "r")]);
   For [Let ["proof_cptr_end"] (E (Bin ADD (Var "proof_cptr") (Num 0x0280)))] (Bin LT (Var "proof_cptr") (Var "proof_cptr_end")) []
   [Set_ ["success"; "proof_cptr"; "hash_mptr"] (Call "read_ec_point" [(Var "success"); (Var "proof_cptr"); (Var "hash_mptr"); (Var "q")])];
   Set_ ["challenge_mptr"; "hash_mptr"] (Call "squeeze_challenge" [(Var "challenge_mptr"); (Var "hash_mptr"); (Var "r")]);
   Set_ ["challenge_mptr"] (Call "squeeze_challenge_cont" [(Var "challenge_mptr"); (Var "r")]);
   For [Let ["proof_cptr_end"] (E (Bin ADD (Var "proof_cptr") (Num 0x0240)))] (Bin LT (Var "proof_cptr") (Var "proof_cptr_end")) []
   [Set_ ["success"; "proof_cptr"; "hash_mptr"] (Call "read_ec_point" [(Var "success"); (Var "proof_cptr"); (Var "hash_mptr"); (Var "q")])];
   Set_ ["challenge_mptr"; "hash_mptr"] (Call "squeeze_challenge" [(Var "challenge_mptr"); (Var "hash_mptr"); (Var "r")]);
   For [Let ["proof_cptr_end"] (E (Bin ADD (Var "proof_cptr") (Num 0x0140)))] (Bin LT (Var "proof_cptr") (Var "proof_cptr_end")) []
   [Set_ ["success"; "proof_cptr"; "hash_mptr"] (Call "read_ec_point" [(Var "success"); (Var "proof_cptr"); (Var "hash_mptr"); (Var "q")])];
   Set_ ["challenge_mptr"; "hash_mptr"] (Call "squeeze_challenge" [(Var "challenge_mptr"); (Var "hash_mptr"); (Var "r")]);
   For [Let ["proof_cptr_end"] (E (Bin ADD (Var "proof_cptr") (Num 0x09c0)))] (Bin LT (Var "proof_cptr") (Var "proof_cptr_end")) []
   [Let ["eval"] (E (Cdload (Var "proof_cptr")));
   Set_ ["success"] (E (Bin AND (Var "success") (Bin LT (Var "eval") (Var "r"))));
   Mstore (Var "hash_mptr") (Var "eval");
   Set_ ["proof_cptr"] (E (Bin ADD (Var "proof_cptr") (Num 0x20)));
   Set_ ["hash_mptr"] (E (Bin ADD (Var "hash_mptr") (Num 0x20)))];
   Set_ ["challenge_mptr"; "hash_mptr"] (Call "squeeze_challenge" [(Var "challenge_mptr"); (Var "hash_mptr"); (Var "r")]);
   Set_ ["challenge_mptr"] (Call "squeeze_challenge_cont" [(Var "challenge_mptr"); (Var "r")]);
   Set_ ["success"; "proof_cptr"; "hash_mptr"] (Call "read_ec_point" [(Var "success"); (Var "proof_cptr"); (Var "hash_mptr"); (Var "q")]);
   Set_ ["challenge_mptr"; "hash_mptr"] (Call "squeeze_challenge" [(Var "challenge_mptr"); (Var "hash_mptr"); (Var "r")]);
   Set_ ["success"; "proof_cptr"; "hash_mptr"] (Call "read_ec_point" [(Var "success"); (Var "proof_cptr"); (Var "hash_mptr"); (Var "q")]);
   Extcodecopy (Var "vk") (Num 0x06c0) (Num 0x00) (Num 0x0aa0);
   If (Mload (Num 0x07a0)) [Let ["num_limbs"] (E (Mload (Num 0x07e0)));
   Let ["num_limb_bits"] (E (Mload (Num 0x0800)));
   Let ["cptr"] (E (Bin ADD (Num 0x1224) (Bin MUL (Mload (Num 0x07c0)) (Num 0x20))));
   Let ["lhs_y_off"] (E (Bin MUL (Var "num_limbs") (Num 0x20)));
   Let ["rhs_x_off"] (E (Bin MUL (Var "lhs_y_off") (Num 2)));
   Let ["rhs_y_off"] (E (Bin MUL (Var "lhs_y_off") (Num 3)));
   Let ["lhs_x"] (E (Cdload (Var "cptr")));
   Let ["lhs_y"] (E (Cdload (Bin ADD (Var "cptr") (Var "lhs_y_off"))));
   Let ["rhs_x"] (E (Cdload (Bin ADD (Var "cptr") (Var "rhs_x_off"))));
   Let ["rhs_y"] (E (Cdload (Bin ADD (Var "cptr") (Var "rhs_y_off"))));
   For [Let ["cptr_end"] (E (Bin ADD (Var "cptr") (Bin MUL (Num 0x20) (Var "num_limbs"))));
   Let ["shift"] (E (Var "num_limb_bits"))] (Bin LT (Var "cptr") (Var "cptr_end")) []
   [Set_ ["cptr"] (E (Bin ADD (Var "cptr") (Num 0x20)));
   Set_ ["lhs_x"] (E (Bin ADD (Var "lhs_x") (Bin SHL (Var "shift") (Cdload (Var "cptr")))));
   Set_ ["lhs_y"] (E (Bin ADD (Var "lhs_y") (Bin SHL (Var "shift") (Cdload (Bin ADD (Var "cptr") (Var "lhs_y_off"))))));
   Set_ ["rhs_x"] (E (Bin ADD (Var "rhs_x") (Bin SHL (Var "shift") (Cdload (Bin ADD (Var "cptr") (Var "rhs_x_off"))))));
   Set_ ["rhs_y"] (E (Bin ADD (Var "rhs_y") (Bin SHL (Var "shift") (Cdload (Bin ADD (Var "cptr") (Var "rhs_y_off"))))));
   Set_ ["shift"] (E (Bin ADD (Var "shift") (Var "num_limb_bits")))];
   Set_ ["success"] (E (Bin AND (Var "success") (Bin EQ (Ter MULMOD (Var "lhs_y") (Var "lhs_y") (Var "q")) (Ter ADDMOD (Ter MULMOD (Var "lhs_x") (Ter MULMOD (Var "lhs_x") (Var "lhs_x") (Var "q")) (Var "q")) (Num 3) (Var "q")))));
   Set_ ["success"] (E (Bin AND (Var "success") (Bin EQ (Ter MULMOD (Var "rhs_y") (Var "rhs_y") (Var "q")) (Ter ADDMOD (Ter MULMOD (Var "rhs_x") (Ter MULMOD (Var "rhs_x") (Var "rhs_x") (Var "q")) (Var "q")) (Num 3) (Var "q")))));
   Mstore (Num 0x1260) (Var "lhs_x");
   Mstore (Num 0x1280) (Var "lhs_y");
   Mstore (Num 0x12a0) (Var "rhs_x");
   Mstore (Num 0x12c0) (Var "rhs_y")];
   Pop (Var "q")].

(** Halo2Verifier.sol:361-363 *)
Definition main_04 : stmt := If (Iszero (Var "success")) [Revert (Num 0) (Num 0)].

(** Halo2Verifier.sol:366-443 *)
Definition main_05 : stmt := Block [Let ["k"] (E (Mload (Num 0x0700)));
   Let ["x"] (E (Mload (Num 0x11e0)));
   Let ["x_n"] (E (Var "x"));
   For [Let ["idx"] (E (Num 0))] (Bin LT (Var "idx") (Var "k")) [Set_ ["idx"] (E (Bin ADD (Var "idx") (Num 1)))]
   [Set_ ["x_n"] (E (Ter MULMOD (Var "x_n") (Var "x_n") (Var "r")))];
   Let ["omega"] (E (Mload (Num 0x0740)));
   Let ["mptr"] (E (Num 0x12e0));
   Let ["mptr_end"] (E (Bin ADD (Var "mptr") (Bin MUL (Num 0x20) (Bin ADD (Mload (Num 0x06e0)) (Num 6)))));
   If (Iszero (Mload (Num 0x06e0))) [Set_ ["mptr_end"] (E (Bin ADD (Var "mptr_end") (Num 0x20)))];
   For [Let ["pow_of_omega"] (E (Mload (Num 0x0780)))] (Bin LT (Var "mptr") (Var "mptr_end")) [Set_ ["mptr"] (E (Bin ADD (Var "mptr") (Num 0x20)))]
   [Mstore (Var "mptr") (Ter ADDMOD (Var "x") (Bin SUB (Var "r") (Var "pow_of_omega")) (Var "r"));
   Set_ ["pow_of_omega"] (E (Ter MULMOD (Var "pow_of_omega") (Var "omega") (Var "r")))];
   Let ["x_n_minus_1"] (E (Ter ADDMOD (Var "x_n") (Bin SUB (Var "r") (Num 1)) (Var "r")));
   Mstore (Var "mptr_end") (Var "x_n_minus_1");
   Set_ ["success"] (Call "batch_invert" [(Var "success"); (Num 0x12e0); (Bin ADD (Var "mptr_end") (Num 0x20)); (Var "r")]);
   Set_ ["mptr"] (E (Num 0x12e0));
   Let ["l_i_common"] (E (Ter MULMOD (Var "x_n_minus_1") (Mload (Num 0x0720)) (Var "r")));
   For [Let ["pow_of_omega"] (E (Mload (Num 0x0780)))] (Bin LT (Var "mptr") (Var "mptr_end")) [Set_ ["mptr"] (E (Bin ADD (Var "mptr") (Num 0x20)))]
   [Mstore (Var "mptr") (Ter MULMOD (Var "l_i_common") (Ter MULMOD (Mload (Var "mptr")) (Var "pow_of_omega") (Var "r")) (Var "r"));
   Set_ ["pow_of_omega"] (E (Ter MULMOD (Var "pow_of_omega") (Var "omega") (Var "r")))];
   Let ["l_blind"] (E (Mload (Bin ADD (Num 0x12e0) (Num 0x20))));
   Let ["l_i_cptr"] (E (Bin ADD (Num 0x12e0) (Num 0x40)));
   For [Let ["l_i_cptr_end"] (E (Bin ADD (Num 0x12e0) (Num 0xc0)))] (Bin LT (Var "l_i_cptr") (Var "l_i_cptr_end")) [Set_ ["l_i_cptr"] (E (Bin ADD (Var "l_i_cptr") (Num 0x20)))]
   [Set_ ["l_blind"] (E (Ter ADDMOD (Var "l_blind") (Mload (Var "l_i_cptr")) (Var "r")))];
   Let ["instance_eval"] (E (Num 0));
   For [Let ["instance_cptr"] (E (Num 0x1224));
   Let ["instance_cptr_end"] (E (Bin ADD (Var "instance_cptr") (Bin MUL (Num 0x20) (Mload (Num 0x06e0)))))] (Bin LT (Var "instance_cptr") (Var "instance_cptr_end")) [Set_ ["instance_cptr"] (E (Bin ADD (Var "instance_cptr") (Num 0x20)));
   Set_ ["l_i_cptr"] (E (Bin ADD (Var "l_i_cptr") (Num 0x20)))]
   [Set_ ["instance_eval"] (E (Ter ADDMOD (Var "instance_eval") (Ter MULMOD (Mload (Var "l_i_cptr")) (Cdload (Var "instance_cptr")) (Var "r")) (Var "r")))];
   Let ["x_n_minus_1_inv"] (E (Mload (Var "mptr_end")));
   Let ["l_last"] (E (Mload (Num 0x12e0)));
   Let ["l_0"] (E (Mload (Bin ADD (Num 0x12e0) (Num 0xc0))));
   Mstore (Num 0x12e0) (Var "x_n");
   Mstore (Num 0x1300) (Var "x_n_minus_1_inv");
   Mstore (Num 0x1320) (Var "l_last");
   Mstore (Num 0x1340) (Var "l_blind");
   Mstore (Num 0x1360) (Var "l_0");
   Mstore (Num 0x1380) (Var "instance_eval")].

(** Halo2Verifier.sol:450-485 *)
Definition main_06_03 : stmt := Block [Let ["a_0"] (E (Cdload (Num 0x07c4)));
   Let ["f_0"] (E (Cdload (Num 0x0944)));
   Let ["var0"] (E (Ter MULMOD (Var "a_0") (Var "f_0") (Var "r")));
   Let ["a_1"] (E (Cdload (Num 0x07e4)));
   Let ["f_1"] (E (Cdload (Num 0x0964)));
   Let ["var1"] (E (Ter MULMOD (Var "a_1") (Var "f_1") (Var "r")));
   Let ["var2"] (E (Ter ADDMOD (Var "var0") (Var "var1") (Var "r")));
   Let ["a_2"] (E (Cdload (Num 0x0804)));
   Let ["f_2"] (E (Cdload (Num 0x0984)));
   Let ["var3"] (E (Ter MULMOD (Var "a_2") (Var "f_2") (Var "r")));
   Let ["var4"] (E (Ter ADDMOD (Var "var2") (Var "var3") (Var "r")));
   Let ["a_3"] (E (Cdload (Num 0x0824)));
   Let ["f_3"] (E (Cdload (Num 0x09a4)));
   Let ["var5"] (E (Ter MULMOD (Var "a_3") (Var "f_3") (Var "r")));
   Let ["var6"] (E (Ter ADDMOD (Var "var4") (Var "var5") (Var "r")));
   Let ["a_4"] (E (Cdload (Num 0x0844)));
   Let ["f_4"] (E (Cdload (Num 0x09c4)));
   Let ["var7"] (E (Ter MULMOD (Var "a_4") (Var "f_4") (Var "r")));
   Let ["var8"] (E (Ter ADDMOD (Var "var6") (Var "var7") (Var "r")));
   Let ["var9"] (E (Ter MULMOD (Var "a_0") (Var "a_1") (Var "r")));
   Let ["f_5"] (E (Cdload (Num 0x0a04)));
   Let ["var10"] (E (Ter MULMOD (Var "var9") (Var "f_5") (Var "r")));
   Let ["var11"] (E (Ter ADDMOD (Var "var8") (Var "var10") (Var "r")));
   Let ["var12"] (E (Ter MULMOD (Var "a_2") (Var "a_3") (Var "r")));
   Let ["f_6"] (E (Cdload (Num 0x0a24)));
   Let ["var13"] (E (Ter MULMOD (Var "var12") (Var "f_6") (Var "r")));
   Let ["var14"] (E (Ter ADDMOD (Var "var11") (Var "var13") (Var "r")));
   Let ["f_7"] (E (Cdload (Num 0x09e4)));
   Let ["a_4_next_1"] (E (Cdload (Num 0x0864)));
   Let ["var15"] (E (Ter MULMOD (Var "f_7") (Var "a_4_next_1") (Var "r")));
   Let ["var16"] (E (Ter ADDMOD (Var "var14") (Var "var15") (Var "r")));
   Let ["f_8"] (E (Cdload (Num 0x0a44)));
   Let ["var17"] (E (Ter ADDMOD (Var "var16") (Var "f_8") (Var "r")));
   Set_ ["quotient_eval_numer"] (E (Var "var17"))].

(** Halo2Verifier.sol:486-516 *)
Definition main_06_04 : stmt := Block [Let ["f_20"] (E (Cdload (Num 0x0bc4)));
   Let ["a_0"] (E (Cdload (Num 0x07c4)));
   Let ["f_12"] (E (Cdload (Num 0x0b24)));
   Let ["var0"] (E (Ter ADDMOD (Var "a_0") (Var "f_12") (Var "r")));
   Let ["var1"] (E (Ter MULMOD (Var "var0") (Var "var0") (Var "r")));
   Let ["var2"] (E (Ter MULMOD (Var "var1") (Var "var1") (Var "r")));
   Let ["var3"] (E (Ter MULMOD (Var "var2") (Var "var0") (Var "r")));
   Let ["var4"] (E (Ter MULMOD (Var "var3") (Num 0x109b7f411ba0e4c9b2b70caf5c36a7b194be7c11ad24378bfedb68592ba8118b) (Var "r")));
   Let ["a_1"] (E (Cdload (Num 0x07e4)));
   Let ["f_13"] (E (Cdload (Num 0x0b44)));
   Let ["var5"] (E (Ter ADDMOD (Var "a_1") (Var "f_13") (Var "r")));
   Let ["var6"] (E (Ter MULMOD (Var "var5") (Var "var5") (Var "r")));
   Let ["var7"] (E (Ter MULMOD (Var "var6") (Var "var6") (Var "r")));
   Let ["var8"] (E (Ter MULMOD (Var "var7") (Var "var5") (Var "r")));
   Let ["var9"] (E (Ter MULMOD (Var "var8") (Num 0x16ed41e13bb9c0c66ae119424fddbcbc9314dc9fdbdeea55d6c64543dc4903e0) (Var "r")));
   Let ["var10"] (E (Ter ADDMOD (Var "var4") (Var "var9") (Var "r")));
   Let ["a_2"] (E (Cdload (Num 0x0804)));
   Let ["f_14"] (E (Cdload (Num 0x0b64)));
   Let ["var11"] (E (Ter ADDMOD (Var "a_2") (Var "f_14") (Var "r")));
   Let ["var12"] (E (Ter MULMOD (Var "var11") (Var "var11") (Var "r")));
   Let ["var13"] (E (Ter MULMOD (Var "var12") (Var "var12") (Var "r")));
   Let ["var14"] (E (Ter MULMOD (Var "var13") (Var "var11") (Var "r")));
   Let ["var15"] (E (Ter MULMOD (Var "var14") (Num 0x2b90bba00fca0589f617e7dcbfe82e0df706ab640ceb247b791a93b74e36736d) (Var "r")));
   Let ["var16"] (E (Ter ADDMOD (Var "var10") (Var "var15") (Var "r")));
   Let ["a_0_next_1"] (E (Cdload (Num 0x0884)));
   Let ["var17"] (E (Bin SUB (Var "r") (Var "a_0_next_1")));
   Let ["var18"] (E (Ter ADDMOD (Var "var16") (Var "var17") (Var "r")));
   Let ["var19"] (E (Ter MULMOD (Var "f_20") (Var "var18") (Var "r")));
   Set_ ["quotient_eval_numer"] (E (Ter ADDMOD (Ter MULMOD (Var "quotient_eval_numer") (Var "y") (Var "r")) (Var "var19") (Var "r")))].

(** Halo2Verifier.sol:517-547 *)
Definition main_06_05 : stmt := Block [Let ["f_20"] (E (Cdload (Num 0x0bc4)));
   Let ["a_0"] (E (Cdload (Num 0x07c4)));
   Let ["f_12"] (E (Cdload (Num 0x0b24)));
   Let ["var0"] (E (Ter ADDMOD (Var "a_0") (Var "f_12") (Var "r")));
   Let ["var1"] (E (Ter MULMOD (Var "var0") (Var "var0") (Var "r")));
   Let ["var2"] (E (Ter MULMOD (Var "var1") (Var "var1") (Var "r")));
   Let ["var3"] (E (Ter MULMOD (Var "var2") (Var "var0") (Var "r")));
   Let ["var4"] (E (Ter MULMOD (Var "var3") (Num 0x2969f27eed31a480b9c36c764379dbca2cc8fdd1415c3dded62940bcde0bd771) (Var "r")));
   Let ["a_1"] (E (Cdload (Num 0x07e4)));
   Let ["f_13"] (E (Cdload (Num 0x0b44)));
   Let ["var5"] (E (Ter ADDMOD (Var "a_1") (Var "f_13") (Var "r")));
   Let ["var6"] (E (Ter MULMOD (Var "var5") (Var "var5") (Var "r")));
   Let ["var7"] (E (Ter MULMOD (Var "var6") (Var "var6") (Var "r")));
   Let ["var8"] (E (Ter MULMOD (Var "var7") (Var "var5") (Var "r")));
   Let ["var9"] (E (Ter MULMOD (Var "var8") (Num 0x2e2419f9ec02ec394c9871c832963dc1b89d743c8c7b964029b2311687b1fe23) (Var "r")));
   Let ["var10"] (E (Ter ADDMOD (Var "var4") (Var "var9") (Var "r")));
   Let ["a_2"] (E (Cdload (Num 0x0804)));
   Let ["f_14"] (E (Cdload (Num 0x0b64)));
   Let ["var11"] (E (Ter ADDMOD (Var "a_2") (Var "f_14") (Var "r")));
   Let ["var12"] (E (Ter MULMOD (Var "var11") (Var "var11") (Var "r")));
   Let ["var13"] (E (Ter MULMOD (Var "var12") (Var "var12") (Var "r")));
   Let ["var14"] (E (Ter MULMOD (Var "var13") (Var "var11") (Var "r")));
   Let ["var15"] (E (Ter MULMOD (Var "var14") (Num 0x101071f0032379b697315876690f053d148d4e109f5fb065c8aacc55a0f89bfa) (Var "r")));
   Let ["var16"] (E (Ter ADDMOD (Var "var10") (Var "var15") (Var "r")));
   Let ["a_1_next_1"] (E (Cdload (Num 0x08a4)));
   Let ["var17"] (E (Bin SUB (Var "r") (Var "a_1_next_1")));
   Let ["var18"] (E (Ter ADDMOD (Var "var16") (Var "var17") (Var "r")));
   Let ["var19"] (E (Ter MULMOD (Var "f_20") (Var "var18") (Var "r")));
   Set_ ["quotient_eval_numer"] (E (Ter ADDMOD (Ter MULMOD (Var "quotient_eval_numer") (Var "y") (Var "r")) (Var "var19") (Var "r")))].

(** Halo2Verifier.sol:548-578 *)
Definition main_06_06 : stmt := Block [Let ["f_20"] (E (Cdload (Num 0x0bc4)));
   Let ["a_0"] (E (Cdload (Num 0x07c4)));
   Let ["f_12"] (E (Cdload (Num 0x0b24)));
   Let ["var0"] (E (Ter ADDMOD (Var "a_0") (Var "f_12") (Var "r")));
   Let ["var1"] (E (Ter MULMOD (Var "var0") (Var "var0") (Var "r")));
   Let ["var2"] (E (Ter MULMOD (Var "var1") (Var "var1") (Var "r")));
   Let ["var3"] (E (Ter MULMOD (Var "var2") (Var "var0") (Var "r")));
   Let ["var4"] (E (Ter MULMOD (Var "var3") (Num 0x143021ec686a3f330d5f9e654638065ce6cd79e28c5b3753326244ee65a1b1a7) (Var "r")));
   Let ["a_1"] (E (Cdload (Num 0x07e4)));
   Let ["f_13"] (E (Cdload (Num 0x0b44)));
   Let ["var5"] (E (Ter ADDMOD (Var "a_1") (Var "f_13") (Var "r")));
   Let ["var6"] (E (Ter MULMOD (Var "var5") (Var "var5") (Var "r")));
   Let ["var7"] (E (Ter MULMOD (Var "var6") (Var "var6") (Var "r")));
   Let ["var8"] (E (Ter MULMOD (Var "var7") (Var "var5") (Var "r")));
   Let ["var9"] (E (Ter MULMOD (Var "var8") (Num 0x176cc029695ad02582a70eff08a6fd99d057e12e58e7d7b6b16cdfabc8ee2911) (Var "r")));
   Let ["var10"] (E (Ter ADDMOD (Var "var4") (Var "var9") (Var "r")));
   Let ["a_2"] (E (Cdload (Num 0x0804)));
   Let ["f_14"] (E (Cdload (Num 0x0b64)));
   Let ["var11"] (E (Ter ADDMOD (Var "a_2") (Var "f_14") (Var "r")));
   Let ["var12"] (E (Ter MULMOD (Var "var11") (Var "var11") (Var "r")));
   Let ["var13"] (E (Ter MULMOD (Var "var12") (Var "var12") (Var "r")));
   Let ["var14"] (E (Ter MULMOD (Var "var13") (Var "var11") (Var "r")));
   Let ["var15"] (E (Ter MULMOD (Var "var14") (Num 0x19a3fc0a56702bf417ba7fee3802593fa644470307043f7773279cd71d25d5e0) (Var "r")));
   Let ["var16"] (E (Ter ADDMOD (Var "var10") (Var "var15") (Var "r")));
   Let ["a_2_next_1"] (E (Cdload (Num 0x08c4)));
   Let ["var17"] (E (Bin SUB (Var "r") (Var "a_2_next_1")));
   Let ["var18"] (E (Ter ADDMOD (Var "var16") (Var "var17") (Var "r")));
   Let ["var19"] (E (Ter MULMOD (Var "f_20") (Var "var18") (Var "r")));
   Set_ ["quotient_eval_numer"] (E (Ter ADDMOD (Ter MULMOD (Var "quotient_eval_numer") (Var "y") (Var "r")) (Var "var19") (Var "r")))].

(** Halo2Verifier.sol:579-592 *)
Definition main_06_07 : stmt := Block [Let ["f_21"] (E (Cdload (Num 0x0be4)));
   Let ["a_0"] (E (Cdload (Num 0x07c4)));
   Let ["f_12"] (E (Cdload (Num 0x0b24)));
   Let ["var0"] (E (Ter ADDMOD (Var "a_0") (Var "f_12") (Var "r")));
   Let ["var1"] (E (Ter MULMOD (Var "var0") (Var "var0") (Var "r")));
   Let ["var2"] (E (Ter MULMOD (Var "var1") (Var "var1") (Var "r")));
   Let ["var3"] (E (Ter MULMOD (Var "var2") (Var "var0") (Var "r")));
   Let ["a_3"] (E (Cdload (Num 0x0824)));
   Let ["var4"] (E (Bin SUB (Var "r") (Var "a_3")));
   Let ["var5"] (E (Ter ADDMOD (Var "var3") (Var "var4") (Var "r")));
   Let ["var6"] (E (Ter MULMOD (Var "f_21") (Var "var5") (Var "r")));
   Set_ ["quotient_eval_numer"] (E (Ter ADDMOD (Ter MULMOD (Var "quotient_eval_numer") (Var "y") (Var "r")) (Var "var6") (Var "r")))].

(** Halo2Verifier.sol:593-624 *)
Definition main_06_08 : stmt := Block [Let ["f_21"] (E (Cdload (Num 0x0be4)));
   Let ["a_3"] (E (Cdload (Num 0x0824)));
   Let ["var0"] (E (Ter MULMOD (Var "a_3") (Num 0x109b7f411ba0e4c9b2b70caf5c36a7b194be7c11ad24378bfedb68592ba8118b) (Var "r")));
   Let ["a_1"] (E (Cdload (Num 0x07e4)));
   Let ["f_13"] (E (Cdload (Num 0x0b44)));
   Let ["var1"] (E (Ter ADDMOD (Var "a_1") (Var "f_13") (Var "r")));
   Let ["var2"] (E (Ter MULMOD (Var "var1") (Num 0x16ed41e13bb9c0c66ae119424fddbcbc9314dc9fdbdeea55d6c64543dc4903e0) (Var "r")));
   Let ["var3"] (E (Ter ADDMOD (Var "var0") (Var "var2") (Var "r")));
   Let ["a_2"] (E (Cdload (Num 0x0804)));
   Let ["f_14"] (E (Cdload (Num 0x0b64)));
   Let ["var4"] (E (Ter ADDMOD (Var "a_2") (Var "f_14") (Var "r")));
   Let ["var5"] (E (Ter MULMOD (Var "var4") (Num 0x2b90bba00fca0589f617e7dcbfe82e0df706ab640ceb247b791a93b74e36736d) (Var "r")));
   Let ["var6"] (E (Ter ADDMOD (Var "var3") (Var "var5") (Var "r")));
   Let ["f_15"] (E (Cdload (Num 0x0ac4)));
   Let ["var7"] (E (Ter ADDMOD (Var "var6") (Var "f_15") (Var "r")));
   Let ["var8"] (E (Ter MULMOD (Var "var7") (Var "var7") (Var "r")));
   Let ["var9"] (E (Ter MULMOD (Var "var8") (Var "var8") (Var "r")));
   Let ["var10"] (E (Ter MULMOD (Var "var9") (Var "var7") (Var "r")));
   Let ["a_0_next_1"] (E (Cdload (Num 0x0884)));
   Let ["var11"] (E (Ter MULMOD (Var "a_0_next_1") (Num 0x203d1d351372bf15b6465d69d3e12806879a5f36b4ba6dd17dfea07d03f82f26) (Var "r")));
   Let ["a_1_next_1"] (E (Cdload (Num 0x08a4)));
   Let ["var12"] (E (Ter MULMOD (Var "a_1_next_1") (Num 0x29b6537218615bcb4b6ad7fe4620063d48e42ce2096b3a1d6e320628bb032c22) (Var "r")));
   Let ["var13"] (E (Ter ADDMOD (Var "var11") (Var "var12") (Var "r")));
   Let ["a_2_next_1"] (E (Cdload (Num 0x08c4)));
   Let ["var14"] (E (Ter MULMOD (Var "a_2_next_1") (Num 0x11551257de3d4b5ab51bd377d7bb55c054f51f711623515b1e2a35a958b93a6a) (Var "r")));
   Let ["var15"] (E (Ter ADDMOD (Var "var13") (Var "var14") (Var "r")));
   Let ["var16"] (E (Bin SUB (Var "r") (Var "var15")));
   Let ["var17"] (E (Ter ADDMOD (Var "var10") (Var "var16") (Var "r")));
   Let ["var18"] (E (Ter MULMOD (Var "f_21") (Var "var17") (Var "r")));
   Set_ ["quotient_eval_numer"] (E (Ter ADDMOD (Ter MULMOD (Var "quotient_eval_numer") (Var "y") (Var "r")) (Var "var18") (Var "r")))].

(** Halo2Verifier.sol:625-653 *)
Definition main_06_09 : stmt := Block [Let ["f_21"] (E (Cdload (Num 0x0be4)));
   Let ["a_3"] (E (Cdload (Num 0x0824)));
   Let ["var0"] (E (Ter MULMOD (Var "a_3") (Num 0x2969f27eed31a480b9c36c764379dbca2cc8fdd1415c3dded62940bcde0bd771) (Var "r")));
   Let ["a_1"] (E (Cdload (Num 0x07e4)));
   Let ["f_13"] (E (Cdload (Num 0x0b44)));
   Let ["var1"] (E (Ter ADDMOD (Var "a_1") (Var "f_13") (Var "r")));
   Let ["var2"] (E (Ter MULMOD (Var "var1") (Num 0x2e2419f9ec02ec394c9871c832963dc1b89d743c8c7b964029b2311687b1fe23) (Var "r")));
   Let ["var3"] (E (Ter ADDMOD (Var "var0") (Var "var2") (Var "r")));
   Let ["a_2"] (E (Cdload (Num 0x0804)));
   Let ["f_14"] (E (Cdload (Num 0x0b64)));
   Let ["var4"] (E (Ter ADDMOD (Var "a_2") (Var "f_14") (Var "r")));
   Let ["var5"] (E (Ter MULMOD (Var "var4") (Num 0x101071f0032379b697315876690f053d148d4e109f5fb065c8aacc55a0f89bfa) (Var "r")));
   Let ["var6"] (E (Ter ADDMOD (Var "var3") (Var "var5") (Var "r")));
   Let ["f_16"] (E (Cdload (Num 0x0ae4)));
   Let ["var7"] (E (Ter ADDMOD (Var "var6") (Var "f_16") (Var "r")));
   Let ["a_0_next_1"] (E (Cdload (Num 0x0884)));
   Let ["var8"] (E (Ter MULMOD (Var "a_0_next_1") (Num 0x29dedb1bbf80c8863d569912c20f1f82bf0dc3bc4fb62798dd1319814f833b54) (Var "r")));
   Let ["a_1_next_1"] (E (Cdload (Num 0x08a4)));
   Let ["var9"] (E (Ter MULMOD (Var "a_1_next_1") (Num 0x130b59143f4e340cd66c7251dc8f56fbbe0367fec1575cb124ca8a66304e3849) (Var "r")));
   Let ["var10"] (E (Ter ADDMOD (Var "var8") (Var "var9") (Var "r")));
   Let ["a_2_next_1"] (E (Cdload (Num 0x08c4)));
   Let ["var11"] (E (Ter MULMOD (Var "a_2_next_1") (Num 0x0c2808c9533e2c526087842fb62521a3248c8d6d3b16d4b4108476d2eeda95f9) (Var "r")));
   Let ["var12"] (E (Ter ADDMOD (Var "var10") (Var "var11") (Var "r")));
   Let ["var13"] (E (Bin SUB (Var "r") (Var "var12")));
   Let ["var14"] (E (Ter ADDMOD (Var "var7") (Var "var13") (Var "r")));
   Let ["var15"] (E (Ter MULMOD (Var "f_21") (Var "var14") (Var "r")));
   Set_ ["quotient_eval_numer"] (E (Ter ADDMOD (Ter MULMOD (Var "quotient_eval_numer") (Var "y") (Var "r")) (Var "var15") (Var "r")))].

(** Halo2Verifier.sol:654-682 *)
Definition main_06_10 : stmt := Block [Let ["f_21"] (E (Cdload (Num 0x0be4)));
   Let ["a_3"] (E (Cdload (Num 0x0824)));
   Let ["var0"] (E (Ter MULMOD (Var "a_3") (Num 0x143021ec686a3f330d5f9e654638065ce6cd79e28c5b3753326244ee65a1b1a7) (Var "r")));
   Let ["a_1"] (E (Cdload (Num 0x07e4)));
   Let ["f_13"] (E (Cdload (Num 0x0b44)));
   Let ["var1"] (E (Ter ADDMOD (Var "a_1") (Var "f_13") (Var "r")));
   Let ["var2"] (E (Ter MULMOD (Var "var1") (Num 0x176cc029695ad02582a70eff08a6fd99d057e12e58e7d7b6b16cdfabc8ee2911) (Var "r")));
   Let ["var3"] (E (Ter ADDMOD (Var "var0") (Var "var2") (Var "r")));
   Let ["a_2"] (E (Cdload (Num 0x0804)));
   Let ["f_14"] (E (Cdload (Num 0x0b64)));
   Let ["var4"] (E (Ter ADDMOD (Var "a_2") (Var "f_14") (Var "r")));
   Let ["var5"] (E (Ter MULMOD (Var "var4") (Num 0x19a3fc0a56702bf417ba7fee3802593fa644470307043f7773279cd71d25d5e0) (Var "r")));
   Let ["var6"] (E (Ter ADDMOD (Var "var3") (Var "var5") (Var "r")));
   Let ["f_17"] (E (Cdload (Num 0x0b04)));
   Let ["var7"] (E (Ter ADDMOD (Var "var6") (Var "f_17") (Var "r")));
   Let ["a_0_next_1"] (E (Cdload (Num 0x0884)));
   Let ["var8"] (E (Ter MULMOD (Var "a_0_next_1") (Num 0x0173249a1c9eac2591706fe09af22cfd29e1387e706cf0ded2889dc145c61609) (Var "r")));
   Let ["a_1_next_1"] (E (Cdload (Num 0x08a4)));
   Let ["var9"] (E (Ter MULMOD (Var "a_1_next_1") (Num 0x0abc7f158780841ec82e03ec3cee0cf1d16270b0238f3063d2e5fb5138e59350) (Var "r")));
   Let ["var10"] (E (Ter ADDMOD (Var "var8") (Var "var9") (Var "r")));
   Let ["a_2_next_1"] (E (Cdload (Num 0x08c4)));
   Let ["var11"] (E (Ter MULMOD (Var "a_2_next_1") (Num 0x1738a318c8631b6e8305505aaf3b497fe9f2478c2f28ee945413af26963b4700) (Var "r")));
   Let ["var12"] (E (Ter ADDMOD (Var "var10") (Var "var11") (Var "r")));
   Let ["var13"] (E (Bin SUB (Var "r") (Var "var12")));
   Let ["var14"] (E (Ter ADDMOD (Var "var7") (Var "var13") (Var "r")));
   Let ["var15"] (E (Ter MULMOD (Var "f_21") (Var "var14") (Var "r")));
   Set_ ["quotient_eval_numer"] (E (Ter ADDMOD (Ter MULMOD (Var "quotient_eval_numer") (Var "y") (Var "r")) (Var "var15") (Var "r")))].

(** Halo2Verifier.sol:683-693 *)
Definition main_06_11 : stmt := Block [Let ["f_22"] (E (Cdload (Num 0x0c04)));
   Let ["a_0_prev_1"] (E (Cdload (Num 0x0904)));
   Let ["a_0"] (E (Cdload (Num 0x07c4)));
   Let ["var0"] (E (Ter ADDMOD (Var "a_0_prev_1") (Var "a_0") (Var "r")));
   Let ["a_0_next_1"] (E (Cdload (Num 0x0884)));
   Let ["var1"] (E (Bin SUB (Var "r") (Var "a_0_next_1")));
   Let ["var2"] (E (Ter ADDMOD (Var "var0") (Var "var1") (Var "r")));
   Let ["var3"] (E (Ter MULMOD (Var "f_22") (Var "var2") (Var "r")));
   Set_ ["quotient_eval_numer"] (E (Ter ADDMOD (Ter MULMOD (Var "quotient_eval_numer") (Var "y") (Var "r")) (Var "var3") (Var "r")))].

(** Halo2Verifier.sol:694-704 *)
Definition main_06_12 : stmt := Block [Let ["f_22"] (E (Cdload (Num 0x0c04)));
   Let ["a_1_prev_1"] (E (Cdload (Num 0x0924)));
   Let ["a_1"] (E (Cdload (Num 0x07e4)));
   Let ["var0"] (E (Ter ADDMOD (Var "a_1_prev_1") (Var "a_1") (Var "r")));
   Let ["a_1_next_1"] (E (Cdload (Num 0x08a4)));
   Let ["var1"] (E (Bin SUB (Var "r") (Var "a_1_next_1")));
   Let ["var2"] (E (Ter ADDMOD (Var "var0") (Var "var1") (Var "r")));
   Let ["var3"] (E (Ter MULMOD (Var "f_22") (Var "var2") (Var "r")));
   Set_ ["quotient_eval_numer"] (E (Ter ADDMOD (Ter MULMOD (Var "quotient_eval_numer") (Var "y") (Var "r")) (Var "var3") (Var "r")))].

(** Halo2Verifier.sol:705-713 *)
Definition main_06_13 : stmt := Block [Let ["f_22"] (E (Cdload (Num 0x0c04)));
   Let ["a_2_prev_1"] (E (Cdload (Num 0x08e4)));
   Let ["a_2_next_1"] (E (Cdload (Num 0x08c4)));
   Let ["var0"] (E (Bin SUB (Var "r") (Var "a_2_next_1")));
   Let ["var1"] (E (Ter ADDMOD (Var "a_2_prev_1") (Var "var0") (Var "r")));
   Let ["var2"] (E (Ter MULMOD (Var "f_22") (Var "var1") (Var "r")));
   Set_ ["quotient_eval_numer"] (E (Ter ADDMOD (Ter MULMOD (Var "quotient_eval_numer") (Var "y") (Var "r")) (Var "var2") (Var "r")))].

(** Halo2Verifier.sol:714-718 *)
Definition main_06_14 : stmt := Block [Let ["l_0"] (E (Mload (Num 0x1360)));
   Let ["eval"] (E (Ter ADDMOD (Var "l_0") (Bin SUB (Var "r") (Ter MULMOD (Var "l_0") (Cdload (Num 0x0d64)) (Var "r"))) (Var "r")));
   Set_ ["quotient_eval_numer"] (E (Ter ADDMOD (Ter MULMOD (Var "quotient_eval_numer") (Var "y") (Var "r")) (Var "eval") (Var "r")))].

(** Halo2Verifier.sol:719-723 *)
Definition main_06_15 : stmt := Block [Let ["perm_z_last"] (E (Cdload (Num 0x0e24)));
   Let ["eval"] (E (Ter MULMOD (Mload (Num 0x1320)) (Ter ADDMOD (Ter MULMOD (Var "perm_z_last") (Var "perm_z_last") (Var "r")) (Bin SUB (Var "r") (Var "perm_z_last")) (Var "r")) (Var "r")));
   Set_ ["quotient_eval_numer"] (E (Ter ADDMOD (Ter MULMOD (Var "quotient_eval_numer") (Var "y") (Var "r")) (Var "eval") (Var "r")))].

(** Halo2Verifier.sol:724-727 *)
Definition main_06_16 : stmt := Block [Let ["eval"] (E (Ter MULMOD (Mload (Num 0x1360)) (Ter ADDMOD (Cdload (Num 0x0dc4)) (Bin SUB (Var "r") (Cdload (Num 0x0da4))) (Var "r")) (Var "r")));
   Set_ ["quotient_eval_numer"] (E (Ter ADDMOD (Ter MULMOD (Var "quotient_eval_numer") (Var "y") (Var "r")) (Var "eval") (Var "r")))].

(** Halo2Verifier.sol:728-731 *)
Definition main_06_17 : stmt := Block [Let ["eval"] (E (Ter MULMOD (Mload (Num 0x1360)) (Ter ADDMOD (Cdload (Num 0x0e24)) (Bin SUB (Var "r") (Cdload (Num 0x0e04))) (Var "r")) (Var "r")));
   Set_ ["quotient_eval_numer"] (E (Ter ADDMOD (Ter MULMOD (Var "quotient_eval_numer") (Var "y") (Var "r")) (Var "eval") (Var "r")))].

(** Halo2Verifier.sol:732-753 *)
Definition main_06_18 : stmt := Block [Let ["gamma"] (E (Mload (Num 0x11a0)));
   Let ["beta"] (E (Mload (Num 0x1180)));
   Let ["lhs"] (E (Cdload (Num 0x0d84)));
   Let ["rhs"] (E (Cdload (Num 0x0d64)));
   Set_ ["lhs"] (E (Ter MULMOD (Var "lhs") (Ter ADDMOD (Ter ADDMOD (Cdload (Num 0x07c4)) (Ter MULMOD (Var "beta") (Cdload (Num 0x0c44)) (Var "r")) (Var "r")) (Var "gamma") (Var "r")) (Var "r")));
   Set_ ["lhs"] (E (Ter MULMOD (Var "lhs") (Ter ADDMOD (Ter ADDMOD (Cdload (Num 0x07e4)) (Ter MULMOD (Var "beta") (Cdload (Num 0x0c64)) (Var "r")) (Var "r")) (Var "gamma") (Var "r")) (Var "r")));
   Set_ ["lhs"] (E (Ter MULMOD (Var "lhs") (Ter ADDMOD (Ter ADDMOD (Cdload (Num 0x0804)) (Ter MULMOD (Var "beta") (Cdload (Num 0x0c84)) (Var "r")) (Var "r")) (Var "gamma") (Var "r")) (Var "r")));
   Set_ ["lhs"] (E (Ter MULMOD (Var "lhs") (Ter ADDMOD (Ter ADDMOD (Cdload (Num 0x0824)) (Ter MULMOD (Var "beta") (Cdload (Num 0x0ca4)) (Var "r")) (Var "r")) (Var "gamma") (Var "r")) (Var "r")));
   Mstore (Num 0x00) (Ter MULMOD (Var "beta") (Mload (Num 0x11e0)) (Var "r"));
   Set_ ["rhs"] (E (Ter MULMOD (Var "rhs") (Ter ADDMOD (Ter ADDMOD (Cdload (Num 0x07c4)) (Mload (Num 0x00)) (Var "r")) (Var "gamma") (Var "r")) (Var "r")));
   Mstore (Num 0x00) (Ter MULMOD (Mload (Num 0x00)) (Var "delta") (Var "r"));
   Set_ ["rhs"] (E (Ter MULMOD (Var "rhs") (Ter ADDMOD (Ter ADDMOD (Cdload (Num 0x07e4)) (Mload (Num 0x00)) (Var "r")) (Var "gamma") (Var "r")) (Var "r")));
   Mstore (Num 0x00) (Ter MULMOD (Mload (Num 0x00)) (Var "delta") (Var "r"));
   Set_ ["rhs"] (E (Ter MULMOD (Var "rhs") (Ter ADDMOD (Ter ADDMOD (Cdload (Num 0x0804)) (Mload (Num 0x00)) (Var "r")) (Var "gamma") (Var "r")) (Var "r")));
   Mstore (Num 0x00) (Ter MULMOD (Mload (Num 0x00)) (Var "delta") (Var "r"));
   Set_ ["rhs"] (E (Ter MULMOD (Var "rhs") (Ter ADDMOD (Ter ADDMOD (Cdload (Num 0x0824)) (Mload (Num 0x00)) (Var "r")) (Var "gamma") (Var "r")) (Var "r")));
   Mstore (Num 0x00) (Ter MULMOD (Mload (Num 0x00)) (Var "delta") (Var "r"));
   Let ["left_sub_right"] (E (Ter ADDMOD (Var "lhs") (Bin SUB (Var "r") (Var "rhs")) (Var "r")));
   Let ["eval"] (E (Ter ADDMOD (Var "left_sub_right") (Bin SUB (Var "r") (Ter MULMOD (Var "left_sub_right") (Ter ADDMOD (Mload (Num 0x1320)) (Mload (Num 0x1340)) (Var "r")) (Var "r"))) (Var "r")));
   Set_ ["quotient_eval_numer"] (E (Ter ADDMOD (Ter MULMOD (Var "quotient_eval_numer") (Var "y") (Var "r")) (Var "eval") (Var "r")))].

(** Halo2Verifier.sol:754-774 *)
Definition main_06_19 : stmt := Block [Let ["gamma"] (E (Mload (Num 0x11a0)));
   Let ["beta"] (E (Mload (Num 0x1180)));
   Let ["lhs"] (E (Cdload (Num 0x0de4)));
   Let ["rhs"] (E (Cdload (Num 0x0dc4)));
   Set_ ["lhs"] (E (Ter MULMOD (Var "lhs") (Ter ADDMOD (Ter ADDMOD (Cdload (Num 0x0844)) (Ter MULMOD (Var "beta") (Cdload (Num 0x0cc4)) (Var "r")) (Var "r")) (Var "gamma") (Var "r")) (Var "r")));
   Set_ ["lhs"] (E (Ter MULMOD (Var "lhs") (Ter ADDMOD (Ter ADDMOD (Mload (Num 0x1380)) (Ter MULMOD (Var "beta") (Cdload (Num 0x0ce4)) (Var "r")) (Var "r")) (Var "gamma") (Var "r")) (Var "r")));
   Set_ ["lhs"] (E (Ter MULMOD (Var "lhs") (Ter ADDMOD (Ter ADDMOD (Cdload (Num 0x0ac4)) (Ter MULMOD (Var "beta") (Cdload (Num 0x0d04)) (Var "r")) (Var "r")) (Var "gamma") (Var "r")) (Var "r")));
   Set_ ["lhs"] (E (Ter MULMOD (Var "lhs") (Ter ADDMOD (Ter ADDMOD (Cdload (Num 0x0ae4)) (Ter MULMOD (Var "beta") (Cdload (Num 0x0d24)) (Var "r")) (Var "r")) (Var "gamma") (Var "r")) (Var "r")));
   Set_ ["rhs"] (E (Ter MULMOD (Var "rhs") (Ter ADDMOD (Ter ADDMOD (Cdload (Num 0x0844)) (Mload (Num 0x00)) (Var "r")) (Var "gamma") (Var "r")) (Var "r")));
   Mstore (Num 0x00) (Ter MULMOD (Mload (Num 0x00)) (Var "delta") (Var "r"));
   Set_ ["rhs"] (E (Ter MULMOD (Var "rhs") (Ter ADDMOD (Ter ADDMOD (Mload (Num 0x1380)) (Mload (Num 0x00)) (Var "r")) (Var "gamma") (Var "r")) (Var "r")));
   Mstore (Num 0x00) (Ter MULMOD (Mload (Num 0x00)) (Var "delta") (Var "r"));
   Set_ ["rhs"] (E (Ter MULMOD (Var "rhs") (Ter ADDMOD (Ter ADDMOD (Cdload (Num 0x0ac4)) (Mload (Num 0x00)) (Var "r")) (Var "gamma") (Var "r")) (Var "r")));
   Mstore (Num 0x00) (Ter MULMOD (Mload (Num 0x00)) (Var "delta") (Var "r"));
   Set_ ["rhs"] (E (Ter MULMOD (Var "rhs") (Ter ADDMOD (Ter ADDMOD (Cdload (Num 0x0ae4)) (Mload (Num 0x00)) (Var "r")) (Var "gamma") (Var "r")) (Var "r")));
   Mstore (Num 0x00) (Ter MULMOD (Mload (Num 0x00)) (Var "delta") (Var "r"));
   Let ["left_sub_right"] (E (Ter ADDMOD (Var "lhs") (Bin SUB (Var "r") (Var "rhs")) (Var "r")));
   Let ["eval"] (E (Ter ADDMOD (Var "left_sub_right") (Bin SUB (Var "r") (Ter MULMOD (Var "left_sub_right") (Ter ADDMOD (Mload (Num 0x1320)) (Mload (Num 0x1340)) (Var "r")) (Var "r"))) (Var "r")));
   Set_ ["quotient_eval_numer"] (E (Ter ADDMOD (Ter MULMOD (Var "quotient_eval_numer") (Var "y") (Var "r")) (Var "eval") (Var "r")))].

(** Halo2Verifier.sol:775-785 *)
Definition main_06_20 : stmt := Block [Let ["gamma"] (E (Mload (Num 0x11a0)));
   Let ["beta"] (E (Mload (Num 0x1180)));
   Let ["lhs"] (E (Cdload (Num 0x0e44)));
   Let ["rhs"] (E (Cdload (Num 0x0e24)));
   Set_ ["lhs"] (E (Ter MULMOD (Var "lhs") (Ter ADDMOD (Ter ADDMOD (Cdload (Num 0x0b04)) (Ter MULMOD (Var "beta") (Cdload (Num 0x0d44)) (Var "r")) (Var "r")) (Var "gamma") (Var "r")) (Var "r")));
   Set_ ["rhs"] (E (Ter MULMOD (Var "rhs") (Ter ADDMOD (Ter ADDMOD (Cdload (Num 0x0b04)) (Mload (Num 0x00)) (Var "r")) (Var "gamma") (Var "r")) (Var "r")));
   Let ["left_sub_right"] (E (Ter ADDMOD (Var "lhs") (Bin SUB (Var "r") (Var "rhs")) (Var "r")));
   Let ["eval"] (E (Ter ADDMOD (Var "left_sub_right") (Bin SUB (Var "r") (Ter MULMOD (Var "left_sub_right") (Ter ADDMOD (Mload (Num 0x1320)) (Mload (Num 0x1340)) (Var "r")) (Var "r"))) (Var "r")));
   Set_ ["quotient_eval_numer"] (E (Ter ADDMOD (Ter MULMOD (Var "quotient_eval_numer") (Var "y") (Var "r")) (Var "eval") (Var "r")))].

(** Halo2Verifier.sol:786-790 *)
Definition main_06_21 : stmt := Block [Let ["l_0"] (E (Mload (Num 0x1360)));
   Let ["eval"] (E (Ter ADDMOD (Var "l_0") (Ter MULMOD (Var "l_0") (Bin SUB (Var "r") (Cdload (Num 0x0e64))) (Var "r")) (Var "r")));
   Set_ ["quotient_eval_numer"] (E (Ter ADDMOD (Ter MULMOD (Var "quotient_eval_numer") (Var "y") (Var "r")) (Var "eval") (Var "r")))].

(** Halo2Verifier.sol:791-795 *)
Definition main_06_22 : stmt := Block [Let ["l_last"] (E (Mload (Num 0x1320)));
   Let ["eval"] (E (Ter MULMOD (Var "l_last") (Ter ADDMOD (Ter MULMOD (Cdload (Num 0x0e64)) (Cdload (Num 0x0e64)) (Var "r")) (Bin SUB (Var "r") (Cdload (Num 0x0e64))) (Var "r")) (Var "r")));
   Set_ ["quotient_eval_numer"] (E (Ter ADDMOD (Ter MULMOD (Var "quotient_eval_numer") (Var "y") (Var "r")) (Var "eval") (Var "r")))].

(** Halo2Verifier.sol:799-807 *)
Definition main_06_23_02 : stmt := Block [Let ["f_18"] (E (Cdload (Num 0x0b84)));
   Let ["var0"] (E (Num 0x5));
   Let ["var1"] (E (Ter MULMOD (Var "f_18") (Var "var0") (Var "r")));
   Let ["a_0"] (E (Cdload (Num 0x07c4)));
   Let ["var2"] (E (Ter MULMOD (Var "f_18") (Var "a_0") (Var "r")));
   Set_ ["input"] (E (Var "var1"));
   Set_ ["input"] (E (Ter ADDMOD (Ter MULMOD (Var "input") (Var "theta") (Var "r")) (Var "var2") (Var "r")))].

(** Halo2Verifier.sol:809-814 *)
Definition main_06_23_04 : stmt := Block [Let ["f_9"] (E (Cdload (Num 0x0a64)));
   Let ["f_10"] (E (Cdload (Num 0x0a84)));
   Set_ ["table"] (E (Var "f_9"));
   Set_ ["table"] (E (Ter ADDMOD (Ter MULMOD (Var "table") (Var "theta") (Var "r")) (Var "f_10") (Var "r")))].

(** Halo2Verifier.sol:796-821 *)
Definition main_06_23 : stmt := Block [Let ["theta"] (E (Mload (Num 0x1160))); Let ["input"] (E (Num 0)); main_06_23_02; Let ["table"] (E (Num 0)); main_06_23_04; Let ["beta"] (E (Mload (Num 0x1180))); Let ["gamma"] (E (Mload (Num 0x11a0))); Let ["lhs"] (E (Ter MULMOD (Cdload (Num 0x0e84)) (Ter MULMOD (Ter ADDMOD (Cdload (Num 0x0ea4)) (Var "beta") (Var "r")) (Ter ADDMOD (Cdload (Num 0x0ee4)) (Var "gamma") (Var "r")) (Var "r")) (Var "r"))); Let ["rhs"] (E (Ter MULMOD (Cdload (Num 0x0e64)) (Ter MULMOD (Ter ADDMOD (Var "input") (Var "beta") (Var "r")) (Ter ADDMOD (Var "table") (Var "gamma") (Var "r")) (Var "r")) (Var "r"))); Let ["eval"] (E (Ter MULMOD (Ter ADDMOD (Num 1) (Bin SUB (Var "r") (Ter ADDMOD (Mload (Num 0x1340)) (Mload (Num 0x1320)) (Var "r"))) (Var "r")) (Ter ADDMOD (Var "lhs") (Bin SUB (Var "r") (Var "rhs")) (Var "r")) (Var "r"))); Set_ ["quotient_eval_numer"] (E (Ter ADDMOD (Ter MULMOD (Var "quotient_eval_numer") (Var "y") (Var "r")) (Var "eval") (Var "r")))].

(** Halo2Verifier.sol:822-825 *)
Definition main_06_24 : stmt := Block [Let ["eval"] (E (Ter MULMOD (Mload (Num 0x1360)) (Ter ADDMOD (Cdload (Num 0x0ea4)) (Bin SUB (Var "r") (Cdload (Num 0x0ee4))) (Var "r")) (Var "r")));
   Set_ ["quotient_eval_numer"] (E (Ter ADDMOD (Ter MULMOD (Var "quotient_eval_numer") (Var "y") (Var "r")) (Var "eval") (Var "r")))].

(** Halo2Verifier.sol:826-829 *)
Definition main_06_25 : stmt := Block [Let ["eval"] (E (Ter MULMOD (Ter ADDMOD (Num 1) (Bin SUB (Var "r") (Ter ADDMOD (Mload (Num 0x1340)) (Mload (Num 0x1320)) (Var "r"))) (Var "r")) (Ter MULMOD (Ter ADDMOD (Cdload (Num 0x0ea4)) (Bin SUB (Var "r") (Cdload (Num 0x0ee4))) (Var "r")) (Ter ADDMOD (Cdload (Num 0x0ea4)) (Bin SUB (Var "r") (Cdload (Num 0x0ec4))) (Var "r")) (Var "r")) (Var "r")));
   Set_ ["quotient_eval_numer"] (E (Ter ADDMOD (Ter MULMOD (Var "quotient_eval_numer") (Var "y") (Var "r")) (Var "eval") (Var "r")))].

(** Halo2Verifier.sol:830-834 *)
Definition main_06_26 : stmt := Block [Let ["l_0"] (E (Mload (Num 0x1360)));
   Let ["eval"] (E (Ter ADDMOD (Var "l_0") (Ter MULMOD (Var "l_0") (Bin SUB (Var "r") (Cdload (Num 0x0f04))) (Var "r")) (Var "r")));
   Set_ ["quotient_eval_numer"] (E (Ter ADDMOD (Ter MULMOD (Var "quotient_eval_numer") (Var "y") (Var "r")) (Var "eval") (Var "r")))].

(** Halo2Verifier.sol:835-839 *)
Definition main_06_27 : stmt := Block [Let ["l_last"] (E (Mload (Num 0x1320)));
   Let ["eval"] (E (Ter MULMOD (Var "l_last") (Ter ADDMOD (Ter MULMOD (Cdload (Num 0x0f04)) (Cdload (Num 0x0f04)) (Var "r")) (Bin SUB (Var "r") (Cdload (Num 0x0f04))) (Var "r")) (Var "r")));
   Set_ ["quotient_eval_numer"] (E (Ter ADDMOD (Ter MULMOD (Var "quotient_eval_numer") (Var "y") (Var "r")) (Var "eval") (Var "r")))].

(** Halo2Verifier.sol:843-851 *)
Definition main_06_28_02 : stmt := Block [Let ["f_18"] (E (Cdload (Num 0x0b84)));
   Let ["var0"] (E (Num 0x5));
   Let ["var1"] (E (Ter MULMOD (Var "f_18") (Var "var0") (Var "r")));
   Let ["a_1"] (E (Cdload (Num 0x07e4)));
   Let ["var2"] (E (Ter MULMOD (Var "f_18") (Var "a_1") (Var "r")));
   Set_ ["input"] (E (Var "var1"));
   Set_ ["input"] (E (Ter ADDMOD (Ter MULMOD (Var "input") (Var "theta") (Var "r")) (Var "var2") (Var "r")))].

(** Halo2Verifier.sol:853-858 *)
Definition main_06_28_04 : stmt := Block [Let ["f_9"] (E (Cdload (Num 0x0a64)));
   Let ["f_10"] (E (Cdload (Num 0x0a84)));
   Set_ ["table"] (E (Var "f_9"));
   Set_ ["table"] (E (Ter ADDMOD (Ter MULMOD (Var "table") (Var "theta") (Var "r")) (Var "f_10") (Var "r")))].

(** Halo2Verifier.sol:840-865 *)
Definition main_06_28 : stmt := Block [Let ["theta"] (E (Mload (Num 0x1160))); Let ["input"] (E (Num 0)); main_06_28_02; Let ["table"] (E (Num 0)); main_06_28_04; Let ["beta"] (E (Mload (Num 0x1180))); Let ["gamma"] (E (Mload (Num 0x11a0))); Let ["lhs"] (E (Ter MULMOD (Cdload (Num 0x0f24)) (Ter MULMOD (Ter ADDMOD (Cdload (Num 0x0f44)) (Var "beta") (Var "r")) (Ter ADDMOD (Cdload (Num 0x0f84)) (Var "gamma") (Var "r")) (Var "r")) (Var "r"))); Let ["rhs"] (E (Ter MULMOD (Cdload (Num 0x0f04)) (Ter MULMOD (Ter ADDMOD (Var "input") (Var "beta") (Var "r")) (Ter ADDMOD (Var "table") (Var "gamma") (Var "r")) (Var "r")) (Var "r"))); Let ["eval"] (E (Ter MULMOD (Ter ADDMOD (Num 1) (Bin SUB (Var "r") (Ter ADDMOD (Mload (Num 0x1340)) (Mload (Num 0x1320)) (Var "r"))) (Var "r")) (Ter ADDMOD (Var "lhs") (Bin SUB (Var "r") (Var "rhs")) (Var "r")) (Var "r"))); Set_ ["quotient_eval_numer"] (E (Ter ADDMOD (Ter MULMOD (Var "quotient_eval_numer") (Var "y") (Var "r")) (Var "eval") (Var "r")))].

(** Halo2Verifier.sol:866-869 *)
Definition main_06_29 : stmt := Block [Let ["eval"] (E (Ter MULMOD (Mload (Num 0x1360)) (Ter ADDMOD (Cdload (Num 0x0f44)) (Bin SUB (Var "r") (Cdload (Num 0x0f84))) (Var "r")) (Var "r")));
   Set_ ["quotient_eval_numer"] (E (Ter ADDMOD (Ter MULMOD (Var "quotient_eval_numer") (Var "y") (Var "r")) (Var "eval") (Var "r")))].

(** Halo2Verifier.sol:870-873 *)
Definition main_06_30 : stmt := Block [Let ["eval"] (E (Ter MULMOD (Ter ADDMOD (Num 1) (Bin SUB (Var "r") (Ter ADDMOD (Mload (Num 0x1340)) (Mload (Num 0x1320)) (Var "r"))) (Var "r")) (Ter MULMOD (Ter ADDMOD (Cdload (Num 0x0f44)) (Bin SUB (Var "r") (Cdload (Num 0x0f84))) (Var "r")) (Ter ADDMOD (Cdload (Num 0x0f44)) (Bin SUB (Var "r") (Cdload (Num 0x0f64))) (Var "r")) (Var "r")) (Var "r")));
   Set_ ["quotient_eval_numer"] (E (Ter ADDMOD (Ter MULMOD (Var "quotient_eval_numer") (Var "y") (Var "r")) (Var "eval") (Var "r")))].

(** Halo2Verifier.sol:874-878 *)
Definition main_06_31 : stmt := Block [Let ["l_0"] (E (Mload (Num 0x1360)));
   Let ["eval"] (E (Ter ADDMOD (Var "l_0") (Ter MULMOD (Var "l_0") (Bin SUB (Var "r") (Cdload (Num 0x0fa4))) (Var "r")) (Var "r")));
   Set_ ["quotient_eval_numer"] (E (Ter ADDMOD (Ter MULMOD (Var "quotient_eval_numer") (Var "y") (Var "r")) (Var "eval") (Var "r")))].

(** Halo2Verifier.sol:879-883 *)
Definition main_06_32 : stmt := Block [Let ["l_last"] (E (Mload (Num 0x1320)));
   Let ["eval"] (E (Ter MULMOD (Var "l_last") (Ter ADDMOD (Ter MULMOD (Cdload (Num 0x0fa4)) (Cdload (Num 0x0fa4)) (Var "r")) (Bin SUB (Var "r") (Cdload (Num 0x0fa4))) (Var "r")) (Var "r")));
   Set_ ["quotient_eval_numer"] (E (Ter ADDMOD (Ter MULMOD (Var "quotient_eval_numer") (Var "y") (Var "r")) (Var "eval") (Var "r")))].

(** Halo2Verifier.sol:887-895 *)
Definition main_06_33_02 : stmt := Block [Let ["f_18"] (E (Cdload (Num 0x0b84)));
   Let ["var0"] (E (Num 0x5));
   Let ["var1"] (E (Ter MULMOD (Var "f_18") (Var "var0") (Var "r")));
   Let ["a_2"] (E (Cdload (Num 0x0804)));
   Let ["var2"] (E (Ter MULMOD (Var "f_18") (Var "a_2") (Var "r")));
   Set_ ["input"] (E (Var "var1"));
   Set_ ["input"] (E (Ter ADDMOD (Ter MULMOD (Var "input") (Var "theta") (Var "r")) (Var "var2") (Var "r")))].

(** Halo2Verifier.sol:897-902 *)
Definition main_06_33_04 : stmt := Block [Let ["f_9"] (E (Cdload (Num 0x0a64)));
   Let ["f_10"] (E (Cdload (Num 0x0a84)));
   Set_ ["table"] (E (Var "f_9"));
   Set_ ["table"] (E (Ter ADDMOD (Ter MULMOD (Var "table") (Var "theta") (Var "r")) (Var "f_10") (Var "r")))].

(** Halo2Verifier.sol:884-909 *)
Definition main_06_33 : stmt := Block [Let ["theta"] (E (Mload (Num 0x1160))); Let ["input"] (E (Num 0)); main_06_33_02; Let ["table"] (E (Num 0)); main_06_33_04; Let ["beta"] (E (Mload (Num 0x1180))); Let ["gamma"] (E (Mload (Num 0x11a0))); Let ["lhs"] (E (Ter MULMOD (Cdload (Num 0x0fc4)) (Ter MULMOD (Ter ADDMOD (Cdload (Num 0x0fe4)) (Var "beta") (Var "r")) (Ter ADDMOD (Cdload (Num 0x1024)) (Var "gamma") (Var "r")) (Var "r")) (Var "r"))); Let ["rhs"] (E (Ter MULMOD (Cdload (Num 0x0fa4)) (Ter MULMOD (Ter ADDMOD (Var "input") (Var "beta") (Var "r")) (Ter ADDMOD (Var "table") (Var "gamma") (Var "r")) (Var "r")) (Var "r"))); Let ["eval"] (E (Ter MULMOD (Ter ADDMOD (Num 1) (Bin SUB (Var "r") (Ter ADDMOD (Mload (Num 0x1340)) (Mload (Num 0x1320)) (Var "r"))) (Var "r")) (Ter ADDMOD (Var "lhs") (Bin SUB (Var "r") (Var "rhs")) (Var "r")) (Var "r"))); Set_ ["quotient_eval_numer"] (E (Ter ADDMOD (Ter MULMOD (Var "quotient_eval_numer") (Var "y") (Var "r")) (Var "eval") (Var "r")))].

(** Halo2Verifier.sol:910-913 *)
Definition main_06_34 : stmt := Block [Let ["eval"] (E (Ter MULMOD (Mload (Num 0x1360)) (Ter ADDMOD (Cdload (Num 0x0fe4)) (Bin SUB (Var "r") (Cdload (Num 0x1024))) (Var "r")) (Var "r")));
   Set_ ["quotient_eval_numer"] (E (Ter ADDMOD (Ter MULMOD (Var "quotient_eval_numer") (Var "y") (Var "r")) (Var "eval") (Var "r")))].

(** Halo2Verifier.sol:914-917 *)
Definition main_06_35 : stmt := Block [Let ["eval"] (E (Ter MULMOD (Ter ADDMOD (Num 1) (Bin SUB (Var "r") (Ter ADDMOD (Mload (Num 0x1340)) (Mload (Num 0x1320)) (Var "r"))) (Var "r")) (Ter MULMOD (Ter ADDMOD (Cdload (Num 0x0fe4)) (Bin SUB (Var "r") (Cdload (Num 0x1024))) (Var "r")) (Ter ADDMOD (Cdload (Num 0x0fe4)) (Bin SUB (Var "r") (Cdload (Num 0x1004))) (Var "r")) (Var "r")) (Var "r")));
   Set_ ["quotient_eval_numer"] (E (Ter ADDMOD (Ter MULMOD (Var "quotient_eval_numer") (Var "y") (Var "r")) (Var "eval") (Var "r")))].

(** Halo2Verifier.sol:918-922 *)
Definition main_06_36 : stmt := Block [Let ["l_0"] (E (Mload (Num 0x1360)));
   Let ["eval"] (E (Ter ADDMOD (Var "l_0") (Ter MULMOD (Var "l_0") (Bin SUB (Var "r") (Cdload (Num 0x1044))) (Var "r")) (Var "r")));
   Set_ ["quotient_eval_numer"] (E (Ter ADDMOD (Ter MULMOD (Var "quotient_eval_numer") (Var "y") (Var "r")) (Var "eval") (Var "r")))].

(** Halo2Verifier.sol:923-927 *)
Definition main_06_37 : stmt := Block [Let ["l_last"] (E (Mload (Num 0x1320)));
   Let ["eval"] (E (Ter MULMOD (Var "l_last") (Ter ADDMOD (Ter MULMOD (Cdload (Num 0x1044)) (Cdload (Num 0x1044)) (Var "r")) (Bin SUB (Var "r") (Cdload (Num 0x1044))) (Var "r")) (Var "r")));
   Set_ ["quotient_eval_numer"] (E (Ter ADDMOD (Ter MULMOD (Var "quotient_eval_numer") (Var "y") (Var "r")) (Var "eval") (Var "r")))].

(** Halo2Verifier.sol:931-939 *)
Definition main_06_38_02 : stmt := Block [Let ["f_18"] (E (Cdload (Num 0x0b84)));
   Let ["var0"] (E (Num 0x5));
   Let ["var1"] (E (Ter MULMOD (Var "f_18") (Var "var0") (Var "r")));
   Let ["a_3"] (E (Cdload (Num 0x0824)));
   Let ["var2"] (E (Ter MULMOD (Var "f_18") (Var "a_3") (Var "r")));
   Set_ ["input"] (E (Var "var1"));
   Set_ ["input"] (E (Ter ADDMOD (Ter MULMOD (Var "input") (Var "theta") (Var "r")) (Var "var2") (Var "r")))].

(** Halo2Verifier.sol:941-946 *)
Definition main_06_38_04 : stmt := Block [Let ["f_9"] (E (Cdload (Num 0x0a64)));
   Let ["f_10"] (E (Cdload (Num 0x0a84)));
   Set_ ["table"] (E (Var "f_9"));
   Set_ ["table"] (E (Ter ADDMOD (Ter MULMOD (Var "table") (Var "theta") (Var "r")) (Var "f_10") (Var "r")))].

(** Halo2Verifier.sol:928-953 *)
Definition main_06_38 : stmt := Block [Let ["theta"] (E (Mload (Num 0x1160))); Let ["input"] (E (Num 0)); main_06_38_02; Let ["table"] (E (Num 0)); main_06_38_04; Let ["beta"] (E (Mload (Num 0x1180))); Let ["gamma"] (E (Mload (Num 0x11a0))); Let ["lhs"] (E (Ter MULMOD (Cdload (Num 0x1064)) (Ter MULMOD (Ter ADDMOD (Cdload (Num 0x1084)) (Var "beta") (Var "r")) (Ter ADDMOD (Cdload (Num 0x10c4)) (Var "gamma") (Var "r")) (Var "r")) (Var "r"))); Let ["rhs"] (E (Ter MULMOD (Cdload (Num 0x1044)) (Ter MULMOD (Ter ADDMOD (Var "input") (Var "beta") (Var "r")) (Ter ADDMOD (Var "table") (Var "gamma") (Var "r")) (Var "r")) (Var "r"))); Let ["eval"] (E (Ter MULMOD (Ter ADDMOD (Num 1) (Bin SUB (Var "r") (Ter ADDMOD (Mload (Num 0x1340)) (Mload (Num 0x1320)) (Var "r"))) (Var "r")) (Ter ADDMOD (Var "lhs") (Bin SUB (Var "r") (Var "rhs")) (Var "r")) (Var "r"))); Set_ ["quotient_eval_numer"] (E (Ter ADDMOD (Ter MULMOD (Var "quotient_eval_numer") (Var "y") (Var "r")) (Var "eval") (Var "r")))].

(** Halo2Verifier.sol:954-957 *)
Definition main_06_39 : stmt := Block [Let ["eval"] (E (Ter MULMOD (Mload (Num 0x1360)) (Ter ADDMOD (Cdload (Num 0x1084)) (Bin SUB (Var "r") (Cdload (Num 0x10c4))) (Var "r")) (Var "r")));
   Set_ ["quotient_eval_numer"] (E (Ter ADDMOD (Ter MULMOD (Var "quotient_eval_numer") (Var "y") (Var "r")) (Var "eval") (Var "r")))].

(** Halo2Verifier.sol:958-961 *)
Definition main_06_40 : stmt := Block [Let ["eval"] (E (Ter MULMOD (Ter ADDMOD (Num 1) (Bin SUB (Var "r") (Ter ADDMOD (Mload (Num 0x1340)) (Mload (Num 0x1320)) (Var "r"))) (Var "r")) (Ter MULMOD (Ter ADDMOD (Cdload (Num 0x1084)) (Bin SUB (Var "r") (Cdload (Num 0x10c4))) (Var "r")) (Ter ADDMOD (Cdload (Num 0x1084)) (Bin SUB (Var "r") (Cdload (Num 0x10a4))) (Var "r")) (Var "r")) (Var "r")));
   Set_ ["quotient_eval_numer"] (E (Ter ADDMOD (Ter MULMOD (Var "quotient_eval_numer") (Var "y") (Var "r")) (Var "eval") (Var "r")))].

(** Halo2Verifier.sol:962-966 *)
Definition main_06_41 : stmt := Block [Let ["l_0"] (E (Mload (Num 0x1360)));
   Let ["eval"] (E (Ter ADDMOD (Var "l_0") (Ter MULMOD (Var "l_0") (Bin SUB (Var "r") (Cdload (Num 0x10e4))) (Var "r")) (Var "r")));
   Set_ ["quotient_eval_numer"] (E (Ter ADDMOD (Ter MULMOD (Var "quotient_eval_numer") (Var "y") (Var "r")) (Var "eval") (Var "r")))].

(** Halo2Verifier.sol:967-971 *)
Definition main_06_42 : stmt := Block [Let ["l_last"] (E (Mload (Num 0x1320)));
   Let ["eval"] (E (Ter MULMOD (Var "l_last") (Ter ADDMOD (Ter MULMOD (Cdload (Num 0x10e4)) (Cdload (Num 0x10e4)) (Var "r")) (Bin SUB (Var "r") (Cdload (Num 0x10e4))) (Var "r")) (Var "r")));
   Set_ ["quotient_eval_numer"] (E (Ter ADDMOD (Ter MULMOD (Var "quotient_eval_numer") (Var "y") (Var "r")) (Var "eval") (Var "r")))].

(** Halo2Verifier.sol:975-982 *)
Definition main_06_43_02 : stmt := Block [Let ["f_11"] (E (Cdload (Num 0x0aa4)));
   Let ["f_19"] (E (Cdload (Num 0x0ba4)));
   Let ["a_0"] (E (Cdload (Num 0x07c4)));
   Let ["var0"] (E (Ter MULMOD (Var "f_19") (Var "a_0") (Var "r")));
   Set_ ["input"] (E (Var "f_11"));
   Set_ ["input"] (E (Ter ADDMOD (Ter MULMOD (Var "input") (Var "theta") (Var "r")) (Var "var0") (Var "r")))].

(** Halo2Verifier.sol:984-989 *)
Definition main_06_43_04 : stmt := Block [Let ["f_9"] (E (Cdload (Num 0x0a64)));
   Let ["f_10"] (E (Cdload (Num 0x0a84)));
   Set_ ["table"] (E (Var "f_9"));
   Set_ ["table"] (E (Ter ADDMOD (Ter MULMOD (Var "table") (Var "theta") (Var "r")) (Var "f_10") (Var "r")))].

(** Halo2Verifier.sol:972-996 *)
Definition main_06_43 : stmt := Block [Let ["theta"] (E (Mload (Num 0x1160))); Let ["input"] (E (Num 0)); main_06_43_02; Let ["table"] (E (Num 0)); main_06_43_04; Let ["beta"] (E (Mload (Num 0x1180))); Let ["gamma"] (E (Mload (Num 0x11a0))); Let ["lhs"] (E (Ter MULMOD (Cdload (Num 0x1104)) (Ter MULMOD (Ter ADDMOD (Cdload (Num 0x1124)) (Var "beta") (Var "r")) (Ter ADDMOD (Cdload (Num 0x1164)) (Var "gamma") (Var "r")) (Var "r")) (Var "r"))); Let ["rhs"] (E (Ter MULMOD (Cdload (Num 0x10e4)) (Ter MULMOD (Ter ADDMOD (Var "input") (Var "beta") (Var "r")) (Ter ADDMOD (Var "table") (Var "gamma") (Var "r")) (Var "r")) (Var "r"))); Let ["eval"] (E (Ter MULMOD (Ter ADDMOD (Num 1) (Bin SUB (Var "r") (Ter ADDMOD (Mload (Num 0x1340)) (Mload (Num 0x1320)) (Var "r"))) (Var "r")) (Ter ADDMOD (Var "lhs") (Bin SUB (Var "r") (Var "rhs")) (Var "r")) (Var "r"))); Set_ ["quotient_eval_numer"] (E (Ter ADDMOD (Ter MULMOD (Var "quotient_eval_numer") (Var "y") (Var "r")) (Var "eval") (Var "r")))].

(** Halo2Verifier.sol:997-1000 *)
Definition main_06_44 : stmt := Block [Let ["eval"] (E (Ter MULMOD (Mload (Num 0x1360)) (Ter ADDMOD (Cdload (Num 0x1124)) (Bin SUB (Var "r") (Cdload (Num 0x1164))) (Var "r")) (Var "r")));
   Set_ ["quotient_eval_numer"] (E (Ter ADDMOD (Ter MULMOD (Var "quotient_eval_numer") (Var "y") (Var "r")) (Var "eval") (Var "r")))].

(** Halo2Verifier.sol:1001-1004 *)
Definition main_06_45 : stmt := Block [Let ["eval"] (E (Ter MULMOD (Ter ADDMOD (Num 1) (Bin SUB (Var "r") (Ter ADDMOD (Mload (Num 0x1340)) (Mload (Num 0x1320)) (Var "r"))) (Var "r")) (Ter MULMOD (Ter ADDMOD (Cdload (Num 0x1124)) (Bin SUB (Var "r") (Cdload (Num 0x1164))) (Var "r")) (Ter ADDMOD (Cdload (Num 0x1124)) (Bin SUB (Var "r") (Cdload (Num 0x1144))) (Var "r")) (Var "r")) (Var "r")));
   Set_ ["quotient_eval_numer"] (E (Ter ADDMOD (Ter MULMOD (Var "quotient_eval_numer") (Var "y") (Var "r")) (Var "eval") (Var "r")))].

(** Halo2Verifier.sol:446-1011 *)
Definition main_06 : stmt := Block [Let ["quotient_eval_numer"] (E (Num 0)); Let ["delta"] (E (Num 4131629893567559867359510883348571134090853742863529169391034518566172092834)); Let ["y"] (E (Mload (Num 0x11c0))); main_06_03; main_06_04; main_06_05; main_06_06; main_06_07; main_06_08; main_06_09; main_06_10; main_06_11; main_06_12; main_06_13; main_06_14; main_06_15; main_06_16; main_06_17; main_06_18; main_06_19; main_06_20; main_06_21; main_06_22; main_06_23; main_06_24; main_06_25; main_06_26; main_06_27; main_06_28; main_06_29; main_06_30; main_06_31; main_06_32; main_06_33; main_06_34; main_06_35; main_06_36; main_06_37; main_06_38; main_06_39; main_06_40; main_06_41; main_06_42; main_06_43; main_06_44; main_06_45; Pop (Var "y"); Pop (Var "delta"); Let ["quotient_eval"] (E (Ter MULMOD (Var "quotient_eval_numer") (Mload (Num 0x1300)) (Var "r"))); Mstore (Num 0x13a0) (Var "quotient_eval")].

(** Halo2Verifier.sol:1014-1032 *)
Definition main_07 : stmt := Block [Mstore (Num 0x00) (Cdload (Num 0x0784));
   Mstore (Num 0x20) (Cdload (Bin ADD (Num 0x0784) (Num 0x20)));
   Let ["x_n"] (E (Mload (Num 0x12e0)));
   For [Let ["cptr"] (E (Bin SUB (Num 0x0784) (Num 0x40)));
   Let ["cptr_end"] (E (Bin SUB (Num 0x0684) (Num 0x40)))] (Bin LT (Var "cptr_end") (Var "cptr")) []
   [Set_ ["success"] (Call "ec_mul_acc" [(Var "success"); (Var "x_n")]);
   Set_ ["success"] (Call "ec_add_acc" [(Var "success"); (Cdload (Var "cptr")); (Cdload (Bin ADD (Var "cptr") (Num 0x20)))]);
   Set_ ["cptr"] (E (Bin SUB (Var "cptr") (Num 0x40)))];
   Mstore (Num 0x13c0) (Mload (Num 0x00));
   Mstore (Num 0x13e0) (Mload (Num 0x20))].

(** Halo2Verifier.sol:1036-1051 *)
Definition main_08_00 : stmt := Block [Let ["x"] (E (Mload (Num 0x11e0)));
   Let ["omega"] (E (Mload (Num 0x0740)));
   Let ["omega_inv"] (E (Mload (Num 0x0760)));
   Let ["x_pow_of_omega"] (E (Ter MULMOD (Var "x") (Var "omega") (Var "r")));
   Mstore (Num 0x0420) (Var "x_pow_of_omega");
   Mstore (Num 0x0400) (Var "x");
   Set_ ["x_pow_of_omega"] (E (Ter MULMOD (Var "x") (Var "omega_inv") (Var "r")));
   Mstore (Num 0x03e0) (Var "x_pow_of_omega");
   Set_ ["x_pow_of_omega"] (E (Ter MULMOD (Var "x_pow_of_omega") (Var "omega_inv") (Var "r")));
   Set_ ["x_pow_of_omega"] (E (Ter MULMOD (Var "x_pow_of_omega") (Var "omega_inv") (Var "r")));
   Set_ ["x_pow_of_omega"] (E (Ter MULMOD (Var "x_pow_of_omega") (Var "omega_inv") (Var "r")));
   Set_ ["x_pow_of_omega"] (E (Ter MULMOD (Var "x_pow_of_omega") (Var "omega_inv") (Var "r")));
   Set_ ["x_pow_of_omega"] (E (Ter MULMOD (Var "x_pow_of_omega") (Var "omega_inv") (Var "r")));
   Mstore (Num 0x03c0) (Var "x_pow_of_omega")].

(** Halo2Verifier.sol:1052-1089 *)
Definition main_08_01 : stmt := Block [Let ["mu"] (E (Mload (Num 0x1240)));
   For [Let ["mptr"] (E (Num 0x0440));
   Let ["mptr_end"] (E (Num 0x04c0));
   Let ["point_mptr"] (E (Num 0x03c0))] (Bin LT (Var "mptr") (Var "mptr_end")) [Set_ ["mptr"] (E (Bin ADD (Var "mptr") (Num 0x20)));
   Set_ ["point_mptr"] (E (Bin ADD (Var "point_mptr") (Num 0x20)))]
   [Mstore (Var "mptr") (Ter ADDMOD (Var "mu") (Bin SUB (Var "r") (Mload (Var "point_mptr"))) (Var "r"))];
   Let ["s"] (E (Num 0));
   Set_ ["s"] (E (Mload (Num 0x0460)));
   Set_ ["s"] (E (Ter MULMOD (Var "s") (Mload (Num 0x0480)) (Var "r")));
   Set_ ["s"] (E (Ter MULMOD (Var "s") (Mload (Num 0x04a0)) (Var "r")));
   Mstore (Num 0x04c0) (Var "s");
   Let ["diff"] (E (Num 0));
   Set_ ["diff"] (E (Mload (Num 0x0440)));
   Mstore (Num 0x04e0) (Var "diff");
   Mstore (Num 0x00) (Var "diff");
   Set_ ["diff"] (E (Mload (Num 0x0440)));
   Set_ ["diff"] (E (Ter MULMOD (Var "diff") (Mload (Num 0x0460)) (Var "r")));
   Set_ ["diff"] (E (Ter MULMOD (Var "diff") (Mload (Num 0x04a0)) (Var "r")));
   Mstore (Num 0x0500) (Var "diff");
   Set_ ["diff"] (E (Mload (Num 0x0440)));
   Set_ ["diff"] (E (Ter MULMOD (Var "diff") (Mload (Num 0x0460)) (Var "r")));
   Mstore (Num 0x0520) (Var "diff");
   Set_ ["diff"] (E (Mload (Num 0x0460)));
   Mstore (Num 0x0540) (Var "diff");
   Set_ ["diff"] (E (Mload (Num 0x0440)));
   Set_ ["diff"] (E (Ter MULMOD (Var "diff") (Mload (Num 0x04a0)) (Var "r")));
   Mstore (Num 0x0560) (Var "diff")].

(** Halo2Verifier.sol:1090-1107 *)
Definition main_08_02 : stmt := Block [Let ["point_1"] (E (Mload (Num 0x03e0)));
   Let ["point_2"] (E (Mload (Num 0x0400)));
   Let ["point_3"] (E (Mload (Num 0x0420)));
   Let ["coeff"] (E (Num 0));
   Set_ ["coeff"] (E (Ter ADDMOD (Var "point_1") (Bin SUB (Var "r") (Var "point_2")) (Var "r")));
   Set_ ["coeff"] (E (Ter MULMOD (Var "coeff") (Ter ADDMOD (Var "point_1") (Bin SUB (Var "r") (Var "point_3")) (Var "r")) (Var "r")));
   Set_ ["coeff"] (E (Ter MULMOD (Var "coeff") (Mload (Num 0x0460)) (Var "r")));
   Mstore (Num 0x20) (Var "coeff");
   Set_ ["coeff"] (E (Ter ADDMOD (Var "point_2") (Bin SUB (Var "r") (Var "point_1")) (Var "r")));
   Set_ ["coeff"] (E (Ter MULMOD (Var "coeff") (Ter ADDMOD (Var "point_2") (Bin SUB (Var "r") (Var "point_3")) (Var "r")) (Var "r")));
   Set_ ["coeff"] (E (Ter MULMOD (Var "coeff") (Mload (Num 0x0480)) (Var "r")));
   Mstore (Num 0x40) (Var "coeff");
   Set_ ["coeff"] (E (Ter ADDMOD (Var "point_3") (Bin SUB (Var "r") (Var "point_1")) (Var "r")));
   Set_ ["coeff"] (E (Ter MULMOD (Var "coeff") (Ter ADDMOD (Var "point_3") (Bin SUB (Var "r") (Var "point_2")) (Var "r")) (Var "r")));
   Set_ ["coeff"] (E (Ter MULMOD (Var "coeff") (Mload (Num 0x04a0)) (Var "r")));
   Mstore (Num 0x60) (Var "coeff")].

(** Halo2Verifier.sol:1108-1114 *)
Definition main_08_03 : stmt := Block [Let ["point_2"] (E (Mload (Num 0x0400)));
   Let ["coeff"] (E (Num 0));
   Set_ ["coeff"] (E (Num 1));
   Set_ ["coeff"] (E (Ter MULMOD (Var "coeff") (Mload (Num 0x0480)) (Var "r")));
   Mstore (Num 0x80) (Var "coeff")].

(** Halo2Verifier.sol:1115-1125 *)
Definition main_08_04 : stmt := Block [Let ["point_2"] (E (Mload (Num 0x0400)));
   Let ["point_3"] (E (Mload (Num 0x0420)));
   Let ["coeff"] (E (Num 0));
   Set_ ["coeff"] (E (Ter ADDMOD (Var "point_2") (Bin SUB (Var "r") (Var "point_3")) (Var "r")));
   Set_ ["coeff"] (E (Ter MULMOD (Var "coeff") (Mload (Num 0x0480)) (Var "r")));
   Mstore (Num 0xa0) (Var "coeff");
   Set_ ["coeff"] (E (Ter ADDMOD (Var "point_3") (Bin SUB (Var "r") (Var "point_2")) (Var "r")));
   Set_ ["coeff"] (E (Ter MULMOD (Var "coeff") (Mload (Num 0x04a0)) (Var "r")));
   Mstore (Num 0xc0) (Var "coeff")].

(** Halo2Verifier.sol:1126-1143 *)
Definition main_08_05 : stmt := Block [Let ["point_0"] (E (Mload (Num 0x03c0)));
   Let ["point_2"] (E (Mload (Num 0x0400)));
   Let ["point_3"] (E (Mload (Num 0x0420)));
   Let ["coeff"] (E (Num 0));
   Set_ ["coeff"] (E (Ter ADDMOD (Var "point_0") (Bin SUB (Var "r") (Var "point_2")) (Var "r")));
   Set_ ["coeff"] (E (Ter MULMOD (Var "coeff") (Ter ADDMOD (Var "point_0") (Bin SUB (Var "r") (Var "point_3")) (Var "r")) (Var "r")));
   Set_ ["coeff"] (E (Ter MULMOD (Var "coeff") (Mload (Num 0x0440)) (Var "r")));
   Mstore (Num 0xe0) (Var "coeff");
   Set_ ["coeff"] (E (Ter ADDMOD (Var "point_2") (Bin SUB (Var "r") (Var "point_0")) (Var "r")));
   Set_ ["coeff"] (E (Ter MULMOD (Var "coeff") (Ter ADDMOD (Var "point_2") (Bin SUB (Var "r") (Var "point_3")) (Var "r")) (Var "r")));
   Set_ ["coeff"] (E (Ter MULMOD (Var "coeff") (Mload (Num 0x0480)) (Var "r")));
   Mstore (Num 0x0100) (Var "coeff");
   Set_ ["coeff"] (E (Ter ADDMOD (Var "point_3") (Bin SUB (Var "r") (Var "point_0")) (Var "r")));
   Set_ ["coeff"] (E (Ter MULMOD (Var "coeff") (Ter ADDMOD (Var "point_3") (Bin SUB (Var "r") (Var "point_2")) (Var "r")) (Var "r")));
   Set_ ["coeff"] (E (Ter MULMOD (Var "coeff") (Mload (Num 0x04a0)) (Var "r")));
   Mstore (Num 0x0120) (Var "coeff")].

(** Halo2Verifier.sol:1144-1154 *)
Definition main_08_06 : stmt := Block [Let ["point_1"] (E (Mload (Num 0x03e0)));
   Let ["point_2"] (E (Mload (Num 0x0400)));
   Let ["coeff"] (E (Num 0));
   Set_ ["coeff"] (E (Ter ADDMOD (Var "point_1") (Bin SUB (Var "r") (Var "point_2")) (Var "r")));
   Set_ ["coeff"] (E (Ter MULMOD (Var "coeff") (Mload (Num 0x0460)) (Var "r")));
   Mstore (Num 0x0140) (Var "coeff");
   Set_ ["coeff"] (E (Ter ADDMOD (Var "point_2") (Bin SUB (Var "r") (Var "point_1")) (Var "r")));
   Set_ ["coeff"] (E (Ter MULMOD (Var "coeff") (Mload (Num 0x0480)) (Var "r")));
   Mstore (Num 0x0160) (Var "coeff")].

(** Halo2Verifier.sol:1155-1169 *)
Definition main_08_07 : stmt := Block [Set_ ["success"] (Call "batch_invert" [(Var "success"); (Num 0); (Num 0x0180); (Var "r")]);
   Let ["diff_0_inv"] (E (Mload (Num 0x00)));
   Mstore (Num 0x04e0) (Var "diff_0_inv");
   For [Let ["mptr"] (E (Num 0x0500));
   Let ["mptr_end"] (E (Num 0x0580))] (Bin LT (Var "mptr") (Var "mptr_end")) [Set_ ["mptr"] (E (Bin ADD (Var "mptr") (Num 0x20)))]
   [Mstore (Var "mptr") (Ter MULMOD (Mload (Var "mptr")) (Var "diff_0_inv") (Var "r"))]].

(** Halo2Verifier.sol:1170-1185 *)
Definition main_08_08 : stmt := Block [Let ["zeta"] (E (Mload (Num 0x1200)));
   Let ["r_eval"] (E (Num 0));
   Set_ ["r_eval"] (E (Ter ADDMOD (Var "r_eval") (Ter MULMOD (Mload (Num 0x20)) (Cdload (Num 0x08e4)) (Var "r")) (Var "r")));
   Set_ ["r_eval"] (E (Ter ADDMOD (Var "r_eval") (Ter MULMOD (Mload (Num 0x40)) (Cdload (Num 0x0804)) (Var "r")) (Var "r")));
   Set_ ["r_eval"] (E (Ter ADDMOD (Var "r_eval") (Ter MULMOD (Mload (Num 0x60)) (Cdload (Num 0x08c4)) (Var "r")) (Var "r")));
   Set_ ["r_eval"] (E (Ter MULMOD (Var "r_eval") (Var "zeta") (Var "r")));
   Set_ ["r_eval"] (E (Ter ADDMOD (Var "r_eval") (Ter MULMOD (Mload (Num 0x20)) (Cdload (Num 0x0924)) (Var "r")) (Var "r")));
   Set_ ["r_eval"] (E (Ter ADDMOD (Var "r_eval") (Ter MULMOD (Mload (Num 0x40)) (Cdload (Num 0x07e4)) (Var "r")) (Var "r")));
   Set_ ["r_eval"] (E (Ter ADDMOD (Var "r_eval") (Ter MULMOD (Mload (Num 0x60)) (Cdload (Num 0x08a4)) (Var "r")) (Var "r")));
   Set_ ["r_eval"] (E (Ter MULMOD (Var "r_eval") (Var "zeta") (Var "r")));
   Set_ ["r_eval"] (E (Ter ADDMOD (Var "r_eval") (Ter MULMOD (Mload (Num 0x20)) (Cdload (Num 0x0904)) (Var "r")) (Var "r")));
   Set_ ["r_eval"] (E (Ter ADDMOD (Var "r_eval") (Ter MULMOD (Mload (Num 0x40)) (Cdload (Num 0x07c4)) (Var "r")) (Var "r")));
   Set_ ["r_eval"] (E (Ter ADDMOD (Var "r_eval") (Ter MULMOD (Mload (Num 0x60)) (Cdload (Num 0x0884)) (Var "r")) (Var "r")));
   Mstore (Num 0x0580) (Var "r_eval")].

(** Halo2Verifier.sol:1186-1227 *)
Definition main_08_09 : stmt := Block [Let ["coeff"] (E (Mload (Num 0x80)));
   Let ["zeta"] (E (Mload (Num 0x1200)));
   Let ["r_eval"] (E (Num 0));
   Set_ ["r_eval"] (E (Ter ADDMOD (Var "r_eval") (Ter MULMOD (Var "coeff") (Cdload (Num 0x0c24)) (Var "r")) (Var "r")));
   Set_ ["r_eval"] (E (Ter MULMOD (Var "r_eval") (Var "zeta") (Var "r")));
   Set_ ["r_eval"] (E (Ter ADDMOD (Var "r_eval") (Ter MULMOD (Var "coeff") (Mload (Num 0x13a0)) (Var "r")) (Var "r")));
   For [Let ["mptr"] (E (Num 0x0d44));
   Let ["mptr_end"] (E (Num 0x0c24))] (Bin LT (Var "mptr_end") (Var "mptr")) [Set_ ["mptr"] (E (Bin SUB (Var "mptr") (Num 0x20)))]
   [Set_ ["r_eval"] (E (Ter ADDMOD (Ter MULMOD (Var "r_eval") (Var "zeta") (Var "r")) (Ter MULMOD (Var "coeff") (Cdload (Var "mptr")) (Var "r")) (Var "r")))];
   For [Let ["mptr"] (E (Num 0x0c04));
   Let ["mptr_end"] (E (Num 0x0924))] (Bin LT (Var "mptr_end") (Var "mptr")) [Set_ ["mptr"] (E (Bin SUB (Var "mptr") (Num 0x20)))]
   [Set_ ["r_eval"] (E (Ter ADDMOD (Ter MULMOD (Var "r_eval") (Var "zeta") (Var "r")) (Ter MULMOD (Var "coeff") (Cdload (Var "mptr")) (Var "r")) (Var "r")))];
   Set_ ["r_eval"] (E (Ter MULMOD (Var "r_eval") (Var "zeta") (Var "r")));
   Set_ ["r_eval"] (E (Ter ADDMOD (Var "r_eval") (Ter MULMOD (Var "coeff") (Cdload (Num 0x1164)) (Var "r")) (Var "r")));
   Set_ ["r_eval"] (E (Ter MULMOD (Var "r_eval") (Var "zeta") (Var "r")));
   Set_ ["r_eval"] (E (Ter ADDMOD (Var "r_eval") (Ter MULMOD (Var "coeff") (Cdload (Num 0x10c4)) (Var "r")) (Var "r")));
   Set_ ["r_eval"] (E (Ter MULMOD (Var "r_eval") (Var "zeta") (Var "r")));
   Set_ ["r_eval"] (E (Ter ADDMOD (Var "r_eval") (Ter MULMOD (Var "coeff") (Cdload (Num 0x1024)) (Var "r")) (Var "r")));
   Set_ ["r_eval"] (E (Ter MULMOD (Var "r_eval") (Var "zeta") (Var "r")));
   Set_ ["r_eval"] (E (Ter ADDMOD (Var "r_eval") (Ter MULMOD (Var "coeff") (Cdload (Num 0x0f84)) (Var "r")) (Var "r")));
   Set_ ["r_eval"] (E (Ter MULMOD (Var "r_eval") (Var "zeta") (Var "r")));
   Set_ ["r_eval"] (E (Ter ADDMOD (Var "r_eval") (Ter MULMOD (Var "coeff") (Cdload (Num 0x0ee4)) (Var "r")) (Var "r")));
   Set_ ["r_eval"] (E (Ter MULMOD (Var "r_eval") (Var "zeta") (Var "r")));
   Set_ ["r_eval"] (E (Ter ADDMOD (Var "r_eval") (Ter MULMOD (Var "coeff") (Cdload (Num 0x0824)) (Var "r")) (Var "r")));
   Set_ ["r_eval"] (E (Ter MULMOD (Var "r_eval") (Mload (Num 0x0500)) (Var "r")));
   Mstore (Num 0x05a0) (Var "r_eval")].

(** Halo2Verifier.sol:1228-1253 *)
Definition main_08_10 : stmt := Block [Let ["zeta"] (E (Mload (Num 0x1200)));
   Let ["r_eval"] (E (Num 0));
   Set_ ["r_eval"] (E (Ter ADDMOD (Var "r_eval") (Ter MULMOD (Mload (Num 0xa0)) (Cdload (Num 0x10e4)) (Var "r")) (Var "r")));
   Set_ ["r_eval"] (E (Ter ADDMOD (Var "r_eval") (Ter MULMOD (Mload (Num 0xc0)) (Cdload (Num 0x1104)) (Var "r")) (Var "r")));
   Set_ ["r_eval"] (E (Ter MULMOD (Var "r_eval") (Var "zeta") (Var "r")));
   Set_ ["r_eval"] (E (Ter ADDMOD (Var "r_eval") (Ter MULMOD (Mload (Num 0xa0)) (Cdload (Num 0x1044)) (Var "r")) (Var "r")));
   Set_ ["r_eval"] (E (Ter ADDMOD (Var "r_eval") (Ter MULMOD (Mload (Num 0xc0)) (Cdload (Num 0x1064)) (Var "r")) (Var "r")));
   Set_ ["r_eval"] (E (Ter MULMOD (Var "r_eval") (Var "zeta") (Var "r")));
   Set_ ["r_eval"] (E (Ter ADDMOD (Var "r_eval") (Ter MULMOD (Mload (Num 0xa0)) (Cdload (Num 0x0fa4)) (Var "r")) (Var "r")));
   Set_ ["r_eval"] (E (Ter ADDMOD (Var "r_eval") (Ter MULMOD (Mload (Num 0xc0)) (Cdload (Num 0x0fc4)) (Var "r")) (Var "r")));
   Set_ ["r_eval"] (E (Ter MULMOD (Var "r_eval") (Var "zeta") (Var "r")));
   Set_ ["r_eval"] (E (Ter ADDMOD (Var "r_eval") (Ter MULMOD (Mload (Num 0xa0)) (Cdload (Num 0x0f04)) (Var "r")) (Var "r")));
   Set_ ["r_eval"] (E (Ter ADDMOD (Var "r_eval") (Ter MULMOD (Mload (Num 0xc0)) (Cdload (Num 0x0f24)) (Var "r")) (Var "r")));
   Set_ ["r_eval"] (E (Ter MULMOD (Var "r_eval") (Var "zeta") (Var "r")));
   Set_ ["r_eval"] (E (Ter ADDMOD (Var "r_eval") (Ter MULMOD (Mload (Num 0xa0)) (Cdload (Num 0x0e64)) (Var "r")) (Var "r")));
   Set_ ["r_eval"] (E (Ter ADDMOD (Var "r_eval") (Ter MULMOD (Mload (Num 0xc0)) (Cdload (Num 0x0e84)) (Var "r")) (Var "r")));
   Set_ ["r_eval"] (E (Ter MULMOD (Var "r_eval") (Var "zeta") (Var "r")));
   Set_ ["r_eval"] (E (Ter ADDMOD (Var "r_eval") (Ter MULMOD (Mload (Num 0xa0)) (Cdload (Num 0x0e24)) (Var "r")) (Var "r")));
   Set_ ["r_eval"] (E (Ter ADDMOD (Var "r_eval") (Ter MULMOD (Mload (Num 0xc0)) (Cdload (Num 0x0e44)) (Var "r")) (Var "r")));
   Set_ ["r_eval"] (E (Ter MULMOD (Var "r_eval") (Var "zeta") (Var "r")));
   Set_ ["r_eval"] (E (Ter ADDMOD (Var "r_eval") (Ter MULMOD (Mload (Num 0xa0)) (Cdload (Num 0x0844)) (Var "r")) (Var "r")));
   Set_ ["r_eval"] (E (Ter ADDMOD (Var "r_eval") (Ter MULMOD (Mload (Num 0xc0)) (Cdload (Num 0x0864)) (Var "r")) (Var "r")));
   Set_ ["r_eval"] (E (Ter MULMOD (Var "r_eval") (Mload (Num 0x0520)) (Var "r")));
   Mstore (Num 0x05c0) (Var "r_eval")].

(** Halo2Verifier.sol:1254-1266 *)
Definition main_08_11 : stmt := Block [Let ["zeta"] (E (Mload (Num 0x1200)));
   Let ["r_eval"] (E (Num 0));
   Set_ ["r_eval"] (E (Ter ADDMOD (Var "r_eval") (Ter MULMOD (Mload (Num 0xe0)) (Cdload (Num 0x0e04)) (Var "r")) (Var "r")));
   Set_ ["r_eval"] (E (Ter ADDMOD (Var "r_eval") (Ter MULMOD (Mload (Num 0x0100)) (Cdload (Num 0x0dc4)) (Var "r")) (Var "r")));
   Set_ ["r_eval"] (E (Ter ADDMOD (Var "r_eval") (Ter MULMOD (Mload (Num 0x0120)) (Cdload (Num 0x0de4)) (Var "r")) (Var "r")));
   Set_ ["r_eval"] (E (Ter MULMOD (Var "r_eval") (Var "zeta") (Var "r")));
   Set_ ["r_eval"] (E (Ter ADDMOD (Var "r_eval") (Ter MULMOD (Mload (Num 0xe0)) (Cdload (Num 0x0da4)) (Var "r")) (Var "r")));
   Set_ ["r_eval"] (E (Ter ADDMOD (Var "r_eval") (Ter MULMOD (Mload (Num 0x0100)) (Cdload (Num 0x0d64)) (Var "r")) (Var "r")));
   Set_ ["r_eval"] (E (Ter ADDMOD (Var "r_eval") (Ter MULMOD (Mload (Num 0x0120)) (Cdload (Num 0x0d84)) (Var "r")) (Var "r")));
   Set_ ["r_eval"] (E (Ter MULMOD (Var "r_eval") (Mload (Num 0x0540)) (Var "r")));
   Mstore (Num 0x05e0) (Var "r_eval")].

(** Halo2Verifier.sol:1267-1286 *)
Definition main_08_12 : stmt := Block [Let ["zeta"] (E (Mload (Num 0x1200)));
   Let ["r_eval"] (E (Num 0));
   Set_ ["r_eval"] (E (Ter ADDMOD (Var "r_eval") (Ter MULMOD (Mload (Num 0x0140)) (Cdload (Num 0x1144)) (Var "r")) (Var "r")));
   Set_ ["r_eval"] (E (Ter ADDMOD (Var "r_eval") (Ter MULMOD (Mload (Num 0x0160)) (Cdload (Num 0x1124)) (Var "r")) (Var "r")));
   Set_ ["r_eval"] (E (Ter MULMOD (Var "r_eval") (Var "zeta") (Var "r")));
   Set_ ["r_eval"] (E (Ter ADDMOD (Var "r_eval") (Ter MULMOD (Mload (Num 0x0140)) (Cdload (Num 0x10a4)) (Var "r")) (Var "r")));
   Set_ ["r_eval"] (E (Ter ADDMOD (Var "r_eval") (Ter MULMOD (Mload (Num 0x0160)) (Cdload (Num 0x1084)) (Var "r")) (Var "r")));
   Set_ ["r_eval"] (E (Ter MULMOD (Var "r_eval") (Var "zeta") (Var "r")));
   Set_ ["r_eval"] (E (Ter ADDMOD (Var "r_eval") (Ter MULMOD (Mload (Num 0x0140)) (Cdload (Num 0x1004)) (Var "r")) (Var "r")));
   Set_ ["r_eval"] (E (Ter ADDMOD (Var "r_eval") (Ter MULMOD (Mload (Num 0x0160)) (Cdload (Num 0x0fe4)) (Var "r")) (Var "r")));
   Set_ ["r_eval"] (E (Ter MULMOD (Var "r_eval") (Var "zeta") (Var "r")));
   Set_ ["r_eval"] (E (Ter ADDMOD (Var "r_eval") (Ter MULMOD (Mload (Num 0x0140)) (Cdload (Num 0x0f64)) (Var "r")) (Var "r")));
   Set_ ["r_eval"] (E (Ter ADDMOD (Var "r_eval") (Ter MULMOD (Mload (Num 0x0160)) (Cdload (Num 0x0f44)) (Var "r")) (Var "r")));
   Set_ ["r_eval"] (E (Ter MULMOD (Var "r_eval") (Var "zeta") (Var "r")));
   Set_ ["r_eval"] (E (Ter ADDMOD (Var "r_eval") (Ter MULMOD (Mload (Num 0x0140)) (Cdload (Num 0x0ec4)) (Var "r")) (Var "r")));
   Set_ ["r_eval"] (E (Ter ADDMOD (Var "r_eval") (Ter MULMOD (Mload (Num 0x0160)) (Cdload (Num 0x0ea4)) (Var "r")) (Var "r")));
   Set_ ["r_eval"] (E (Ter MULMOD (Var "r_eval") (Mload (Num 0x0560)) (Var "r")));
   Mstore (Num 0x0600) (Var "r_eval")].

(** Halo2Verifier.sol:1287-1292 *)
Definition main_08_13 : stmt := Block [Let ["sum"] (E (Mload (Num 0x20)));
   Set_ ["sum"] (E (Ter ADDMOD (Var "sum") (Mload (Num 0x40)) (Var "r")));
   Set_ ["sum"] (E (Ter ADDMOD (Var "sum") (Mload (Num 0x60)) (Var "r")));
   Mstore (Num 0x0620) (Var "sum")].

(** Halo2Verifier.sol:1293-1296 *)
Definition main_08_14 : stmt := Block [Let ["sum"] (E (Mload (Num 0x80)));
   Mstore (Num 0x0640) (Var "sum")].

(** Halo2Verifier.sol:1297-1301 *)
Definition main_08_15 : stmt := Block [Let ["sum"] (E (Mload (Num 0xa0)));
   Set_ ["sum"] (E (Ter ADDMOD (Var "sum") (Mload (Num 0xc0)) (Var "r")));
   Mstore (Num 0x0660) (Var "sum")].

(** Halo2Verifier.sol:1302-1307 *)
Definition main_08_16 : stmt := Block [Let ["sum"] (E (Mload (Num 0xe0)));
   Set_ ["sum"] (E (Ter ADDMOD (Var "sum") (Mload (Num 0x0100)) (Var "r")));
   Set_ ["sum"] (E (Ter ADDMOD (Var "sum") (Mload (Num 0x0120)) (Var "r")));
   Mstore (Num 0x0680) (Var "sum")].

(** Halo2Verifier.sol:1308-1312 *)
Definition main_08_17 : stmt := Block [Let ["sum"] (E (Mload (Num 0x0140)));
   Set_ ["sum"] (E (Ter ADDMOD (Var "sum") (Mload (Num 0x0160)) (Var "r")));
   Mstore (Num 0x06a0) (Var "sum")].

(** Halo2Verifier.sol:1313-1346 *)
Definition main_08_18 : stmt := Block [For [Let ["mptr"] (E (Num 0x00));
   Let ["mptr_end"] (E (Num 0xa0));
   Let ["sum_mptr"] (E (Num 0x0620))] (Bin LT (Var "mptr") (Var "mptr_end")) [Set_ ["mptr"] (E (Bin ADD (Var "mptr") (Num 0x20)));
   Set_ ["sum_mptr"] (E (Bin ADD (Var "sum_mptr") (Num 0x20)))]
   [Mstore (Var "mptr") (Mload (Var "sum_mptr"))];
   Set_ ["success"] (Call "batch_invert" [(Var "success"); (Num 0); (Num 0xa0); (Var "r")]);
   Let ["r_eval"] (E (Ter MULMOD (Mload (Num 0x80)) (Mload (Num 0x0600)) (Var "r")));
   For [Let ["sum_inv_mptr"] (E (Num 0x60));
   Let ["sum_inv_mptr_end"] (E (Num 0xa0));
   Let ["r_eval_mptr"] (E (Num 0x05e0))] (Bin LT (Var "sum_inv_mptr") (Var "sum_inv_mptr_end")) [Set_ ["sum_inv_mptr"] (E (Bin SUB (Var "sum_inv_mptr") (Num 0x20)));
   Set_ ["r_eval_mptr"] (E (Bin SUB (Var "r_eval_mptr") (Num 0x20)))]
   [Set_ ["r_eval"] (E (Ter MULMOD (Var "r_eval") (Mload (Num 0x1220)) (Var "r")));
   Set_ ["r_eval"] (E (Ter ADDMOD (Var "r_eval") (Ter MULMOD (Mload (Var "sum_inv_mptr")) (Mload (Var "r_eval_mptr")) (Var "r")) (Var "r")))];
   Mstore (Num 0x1400) (Var "r_eval")].

(** Halo2Verifier.sol:1347-1488 *)
Definition main_08_19 : stmt := Block [Let ["nu"] (E (Mload (Num 0x1220)));
   Mstore (Num 0x00) (Cdload (Num 0x0104));
   Mstore (Num 0x20) (Cdload (Num 0x0124));
   Set_ ["success"] (Call "ec_mul_acc" [(Var "success"); (Mload (Num 0x1200))]);
   Set_ ["success"] (Call "ec_add_acc" [(Var "success"); (Cdload (Num 0xc4)); (Cdload (Num 0xe4))]);
   Set_ ["success"] (Call "ec_mul_acc" [(Var "success"); (Mload (Num 0x1200))]);
   Set_ ["success"] (Call "ec_add_acc" [(Var "success"); (Cdload (Num 0x84)); (Cdload (Num 0xa4))]);
   Mstore (Num 0x80) (Cdload (Num 0x0644));
   Mstore (Num 0xa0) (Cdload (Num 0x0664));
   Set_ ["success"] (Call "ec_mul_tmp" [(Var "success"); (Mload (Num 0x1200))]);
   Set_ ["success"] (Call "ec_add_tmp" [(Var "success"); (Mload (Num 0x13c0)); (Mload (Num 0x13e0))]);
   For [Let ["mptr"] (E (Num 0x1120));
   Let ["mptr_end"] (E (Num 0x0da0))] (Bin LT (Var "mptr_end") (Var "mptr")) [Set_ ["mptr"] (E (Bin SUB (Var "mptr") (Num 0x40)))]
   [Set_ ["success"] (Call "ec_mul_tmp" [(Var "success"); (Mload (Num 0x1200))]);
   Set_ ["success"] (Call "ec_add_tmp" [(Var "success"); (Mload (Var "mptr")); (Mload (Bin ADD (Var "mptr") (Num 0x20)))])];
   For [Let ["mptr"] (E (Num 0x0ce0));
   Let ["mptr_end"] (E (Num 0x0c20))] (Bin LT (Var "mptr_end") (Var "mptr")) [Set_ ["mptr"] (E (Bin SUB (Var "mptr") (Num 0x40)))]
   [Set_ ["success"] (Call "ec_mul_tmp" [(Var "success"); (Mload (Num 0x1200))]);
   Set_ ["success"] (Call "ec_add_tmp" [(Var "success"); (Mload (Var "mptr")); (Mload (Bin ADD (Var "mptr") (Num 0x20)))])];
   For [Let ["mptr"] (E (Num 0x0da0));
   Let ["mptr_end"] (E (Num 0x0ce0))] (Bin LT (Var "mptr_end") (Var "mptr")) [Set_ ["mptr"] (E (Bin SUB (Var "mptr") (Num 0x40)))]
   [Set_ ["success"] (Call "ec_mul_tmp" [(Var "success"); (Mload (Num 0x1200))]);
   Set_ ["success"] (Call "ec_add_tmp" [(Var "success"); (Mload (Var "mptr")); (Mload (Bin ADD (Var "mptr") (Num 0x20)))])];
   For [Let ["mptr"] (E (Num 0x0c20));
   Let ["mptr_end"] (E (Num 0x0b20))] (Bin LT (Var "mptr_end") (Var "mptr")) [Set_ ["mptr"] (E (Bin SUB (Var "mptr") (Num 0x40)))]
   [Set_ ["success"] (Call "ec_mul_tmp" [(Var "success"); (Mload (Num 0x1200))]);
   Set_ ["success"] (Call "ec_add_tmp" [(Var "success"); (Mload (Var "mptr")); (Mload (Bin ADD (Var "mptr") (Num 0x20)))])];
   Set_ ["success"] (Call "ec_mul_tmp" [(Var "success"); (Mload (Num 0x1200))]);
   Set_ ["success"] (Call "ec_add_tmp" [(Var "success"); (Mload (Num 0x0ae0)); (Mload (Num 0x0b00))]);
   Set_ ["success"] (Call "ec_mul_tmp" [(Var "success"); (Mload (Num 0x1200))]);
   Set_ ["success"] (Call "ec_add_tmp" [(Var "success"); (Mload (Num 0x0aa0)); (Mload (Num 0x0ac0))]);
   Set_ ["success"] (Call "ec_mul_tmp" [(Var "success"); (Mload (Num 0x1200))]);
   Set_ ["success"] (Call "ec_add_tmp" [(Var "success"); (Mload (Num 0x0b20)); (Mload (Num 0x0b40))]);
   For [Let ["mptr"] (E (Num 0x0a60));
   Let ["mptr_end"] (E (Num 0x0920))] (Bin LT (Var "mptr_end") (Var "mptr")) [Set_ ["mptr"] (E (Bin SUB (Var "mptr") (Num 0x40)))]
   [Set_ ["success"] (Call "ec_mul_tmp" [(Var "success"); (Mload (Num 0x1200))]);
   Set_ ["success"] (Call "ec_add_tmp" [(Var "success"); (Mload (Var "mptr")); (Mload (Bin ADD (Var "mptr") (Num 0x20)))])];
   Set_ ["success"] (Call "ec_mul_tmp" [(Var "success"); (Mload (Num 0x1200))]);
   Set_ ["success"] (Call "ec_add_tmp" [(Var "success"); (Cdload (Num 0x0404)); (Cdload (Num 0x0424))]);
   Set_ ["success"] (Call "ec_mul_tmp" [(Var "success"); (Mload (Num 0x1200))]);
   Set_ ["success"] (Call "ec_add_tmp" [(Var "success"); (Cdload (Num 0x0384)); (Cdload (Num 0x03a4))]);
   Set_ ["success"] (Call "ec_mul_tmp" [(Var "success"); (Mload (Num 0x1200))]);
   Set_ ["success"] (Call "ec_add_tmp" [(Var "success"); (Cdload (Num 0x0304)); (Cdload (Num 0x0324))]);
   Set_ ["success"] (Call "ec_mul_tmp" [(Var "success"); (Mload (Num 0x1200))]);
   Set_ ["success"] (Call "ec_add_tmp" [(Var "success"); (Cdload (Num 0x0284)); (Cdload (Num 0x02a4))]);
   Set_ ["success"] (Call "ec_mul_tmp" [(Var "success"); (Mload (Num 0x1200))]);
   Set_ ["success"] (Call "ec_add_tmp" [(Var "success"); (Cdload (Num 0x0204)); (Cdload (Num 0x0224))]);
   Set_ ["success"] (Call "ec_mul_tmp" [(Var "success"); (Mload (Num 0x1200))]);
   Set_ ["success"] (Call "ec_add_tmp" [(Var "success"); (Cdload (Num 0x0144)); (Cdload (Num 0x0164))]);
   Set_ ["success"] (Call "ec_mul_tmp" [(Var "success"); (Ter MULMOD (Var "nu") (Mload (Num 0x0500)) (Var "r"))]);
   Set_ ["success"] (Call "ec_add_acc" [(Var "success"); (Mload (Num 0x80)); (Mload (Num 0xa0))]);
   Set_ ["nu"] (E (Ter MULMOD (Var "nu") (Mload (Num 0x1220)) (Var "r")));
   Mstore (Num 0x80) (Cdload (Num 0x0604));
   Mstore (Num 0xa0) (Cdload (Num 0x0624));
   For [Let ["mptr"] (E (Num 0x05c4));
   Let ["mptr_end"] (E (Num 0x0484))] (Bin LT (Var "mptr_end") (Var "mptr")) [Set_ ["mptr"] (E (Bin SUB (Var "mptr") (Num 0x40)))]
   [Set_ ["success"] (Call "ec_mul_tmp" [(Var "success"); (Mload (Num 0x1200))]);
   Set_ ["success"] (Call "ec_add_tmp" [(Var "success"); (Cdload (Var "mptr")); (Cdload (Bin ADD (Var "mptr") (Num 0x20)))])];
   Set_ ["success"] (Call "ec_mul_tmp" [(Var "success"); (Mload (Num 0x1200))]);
   Set_ ["success"] (Call "ec_add_tmp" [(Var "success"); (Cdload (Num 0x0184)); (Cdload (Num 0x01a4))]);
   Set_ ["success"] (Call "ec_mul_tmp" [(Var "success"); (Ter MULMOD (Var "nu") (Mload (Num 0x0520)) (Var "r"))]);
   Set_ ["success"] (Call "ec_add_acc" [(Var "success"); (Mload (Num 0x80)); (Mload (Num 0xa0))]);
   Set_ ["nu"] (E (Ter MULMOD (Var "nu") (Mload (Num 0x1220)) (Var "r")));
   Mstore (Num 0x80) (Cdload (Num 0x0484));
   Mstore (Num 0xa0) (Cdload (Num 0x04a4));
   Set_ ["success"] (Call "ec_mul_tmp" [(Var "success"); (Mload (Num 0x1200))]);
   Set_ ["success"] (Call "ec_add_tmp" [(Var "success"); (Cdload (Num 0x0444)); (Cdload (Num 0x0464))]);
   Set_ ["success"] (Call "ec_mul_tmp" [(Var "success"); (Ter MULMOD (Var "nu") (Mload (Num 0x0540)) (Var "r"))]);
   Set_ ["success"] (Call "ec_add_acc" [(Var "success"); (Mload (Num 0x80)); (Mload (Num 0xa0))]);
   Set_ ["nu"] (E (Ter MULMOD (Var "nu") (Mload (Num 0x1220)) (Var "r")));
   Mstore (Num 0x80) (Cdload (Num 0x03c4));
   Mstore (Num 0xa0) (Cdload (Num 0x03e4));
   Set_ ["success"] (Call "ec_mul_tmp" [(Var "success"); (Mload (Num 0x1200))]);
   Set_ ["success"] (Call "ec_add_tmp" [(Var "success"); (Cdload (Num 0x0344)); (Cdload (Num 0x0364))]);
   Set_ ["success"] (Call "ec_mul_tmp" [(Var "success"); (Mload (Num 0x1200))]);
   Set_ ["success"] (Call "ec_add_tmp" [(Var "success"); (Cdload (Num 0x02c4)); (Cdload (Num 0x02e4))]);
   Set_ ["success"] (Call "ec_mul_tmp" [(Var "success"); (Mload (Num 0x1200))]);
   Set_ ["success"] (Call "ec_add_tmp" [(Var "success"); (Cdload (Num 0x0244)); (Cdload (Num 0x0264))]);
   Set_ ["success"] (Call "ec_mul_tmp" [(Var "success"); (Mload (Num 0x1200))]);
   Set_ ["success"] (Call "ec_add_tmp" [(Var "success"); (Cdload (Num 0x01c4)); (Cdload (Num 0x01e4))]);
   Set_ ["success"] (Call "ec_mul_tmp" [(Var "success"); (Ter MULMOD (Var "nu") (Mload (Num 0x0560)) (Var "r"))]);
   Set_ ["success"] (Call "ec_add_acc" [(Var "success"); (Mload (Num 0x80)); (Mload (Num 0xa0))]);
   Mstore (Num 0x80) (Mload (Num 0x0820));
   Mstore (Num 0xa0) (Mload (Num 0x0840));
   Set_ ["success"] (Call "ec_mul_tmp" [(Var "success"); (Bin SUB (Var "r") (Mload (Num 0x1400)))]);
   Set_ ["success"] (Call "ec_add_acc" [(Var "success"); (Mload (Num 0x80)); (Mload (Num 0xa0))]);
   Mstore (Num 0x80) (Cdload (Num 0x1184));
   Mstore (Num 0xa0) (Cdload (Num 0x11a4));
   Set_ ["success"] (Call "ec_mul_tmp" [(Var "success"); (Bin SUB (Var "r") (Mload (Num 0x04c0)))]);
   Set_ ["success"] (Call "ec_add_acc" [(Var "success"); (Mload (Num 0x80)); (Mload (Num 0xa0))]);
   Mstore (Num 0x80) (Cdload (Num 0x11c4));
   Mstore (Num 0xa0) (Cdload (Num 0x11e4));
   Set_ ["success"] (Call "ec_mul_tmp" [(Var "success"); (Mload (Num 0x1240))]);
   Set_ ["success"] (Call "ec_add_acc" [(Var "success"); (Mload (Num 0x80)); (Mload (Num 0xa0))]);
   Mstore (Num 0x1420) (Mload (Num 0x00));
   Mstore (Num 0x1440) (Mload (Num 0x20));
   Mstore (Num 0x1460) (Cdload (Num 0x11c4));
   Mstore (Num 0x1480) (Cdload (Num 0x11e4))].

(** Halo2Verifier.sol:1035-1489 *)
Definition main_08 : stmt := Block [main_08_00; main_08_01; main_08_02; main_08_03; main_08_04; main_08_05; main_08_06; main_08_07; main_08_08; main_08_09; main_08_10; main_08_11; main_08_12; main_08_13; main_08_14; main_08_15; main_08_16; main_08_17; main_08_18; main_08_19].

(** Halo2Verifier.sol:1492-1516 *)
Definition main_09 : stmt := If (Mload (Num 0x07a0)) [Mstore (Num 0x00) (Mload (Num 0x1260));
   Mstore (Num 0x20) (Mload (Num 0x1280));
   Mstore (Num 0x40) (Mload (Num 0x12a0));
   Mstore (Num 0x60) (Mload (Num 0x12c0));
   Mstore (Num 0x80) (Mload (Num 0x1420));
   Mstore (Num 0xa0) (Mload (Num 0x1440));
   Mstore (Num 0xc0) (Mload (Num 0x1460));
   Mstore (Num 0xe0) (Mload (Num 0x1480));
   Let ["challenge"] (E (Bin MOD (Keccak (Num 0x00) (Num 0x100)) (Var "r")));
   Set_ ["success"] (Call "ec_mul_acc" [(Var "success"); (Var "challenge")]);
   Set_ ["success"] (Call "ec_add_acc" [(Var "success"); (Mload (Num 0x1420)); (Mload (Num 0x1440))]);
   Mstore (Num 0x1420) (Mload (Num 0x00));
   Mstore (Num 0x1440) (Mload (Num 0x20));
   Mstore (Num 0x00) (Mload (Num 0x12a0));
   Mstore (Num 0x20) (Mload (Num 0x12c0));
   Set_ ["success"] (Call "ec_mul_acc" [(Var "success"); (Var "challenge")]);
   Set_ ["success"] (Call "ec_add_acc" [(Var "success"); (Mload (Num 0x1460)); (Mload (Num 0x1480))]);
   Mstore (Num 0x1460) (Mload (Num 0x00));
   Mstore (Num 0x1480) (Mload (Num 0x20))].

(** Halo2Verifier.sol:1519-1525 *)
Definition main_10 : stmt := Set_ ["success"] (Call "ec_pairing" [(Var "success"); (Mload (Num 0x1420)); (Mload (Num 0x1440)); (Mload (Num 0x1460)); (Mload (Num 0x1480))]).

(** Halo2Verifier.sol:1528-1530 *)
Definition main_11 : stmt := If (Iszero (Var "success")) [Revert (Num 0x00) (Num 0x00)].

(** Halo2Verifier.sol:1533 *)
Definition main_12 : stmt := Mstore (Num 0x00) (Num 1).

(** Halo2Verifier.sol:1534 *)
Definition main_13 : stmt := Return (Num 0x00) (Num 0x20).

(** Halo2Verifier.sol:72-1535 *)
Definition main : list stmt := [main_00; main_01; main_02; main_03; main_04; main_05; main_06; main_07; main_08; main_09; main_10; main_11; main_12; main_13].

(** The code of the deployed key contract: Halo2VerifyingKey-3-5-18-g2.sol:8-92, words in order (offset 0x00 on) *)
Definition vk_code : list Z := [
  0x02f3c36a5a29edffed73563df762e43806a2459d7ba723ff3ed99c7305a1aa47;
  0x0000000000000000000000000000000000000000000000000000000000000031;
  0x0000000000000000000000000000000000000000000000000000000000000012;
  0x30644259cd94e7dd5045d7a27013b7fcd21c9e3b7fa75222e7bda49b729b0401;
  0x0f60c8fe0414cb9379b2d39267945f6bd60d06a05216231b26a9fcf88ddbfebe;
  0x0e1165d221ab96da2bb4efe1b8fbf541b58d00917384a41bc6ab624d6d3e2b76;
  0x15a9c33a6d34b8fb8e5c3ff61814ca50c878ed14bc17d9442cd5c127bf33fd6d;
  0x0000000000000000000000000000000000000000000000000000000000000000;
  0x0000000000000000000000000000000000000000000000000000000000000000;
  0x0000000000000000000000000000000000000000000000000000000000000000;
  0x0000000000000000000000000000000000000000000000000000000000000000;
  0x0000000000000000000000000000000000000000000000000000000000000001;
  0x0000000000000000000000000000000000000000000000000000000000000002;
  0x198e9393920d483a7260bfb731fb5d25f1aa493335a9e71297e485b7aef312c2;
  0x1800deef121f1e76426a00665e5c4479674322d4f75edadd46debd5cd992f6ed;
  0x090689d0585ff075ec9e99ad690c3395bc4b313370b38ef355acdadcd122975b;
  0x12c85ea5db8c6deb4aab71808dcb408fe3d1e7690c43d37b4ce6cc0166fa7daa;
  0x172aa93c41f16e1e04d62ac976a5d945f4be0acab990c6dc19ac4a7cf68bf77b;
  0x2ae0c8c3a090f7200ff398ee9845bbae8f8c1445ae7b632212775f60a0e21600;
  0x190fa476a5b352809ed41d7a0d7fe12b8f685e3c12a6d83855dba27aaf469643;
  0x1c0a500618907df9e4273d5181e31088deb1f05132de037cbfe73888f97f77c9;
  0x1571f5c7630c9b40377fdeac6a9bff5aca849775e5c9bfdff28b0d56ab66fade;
  0x04454e034377ce9eada52b79758574a1f6bec4a5d1a9b1000bf4b37dfef9728f;
  0x22860facd1f6e926189502423c2c5a9574a029165785fb4e2d97c54842de79e2;
  0x269c82dccd1cc0c1f7d1dde27af2b70bc816d55a85e5d34eda84ac59681fbfc7;
  0x11169d533df30955762cebaef67b978dfe93364748b6d3c0f8b5d969009bbea0;
  0x05b1ae24179e5f2f6940f75d321a41a32b6daea42f945317afe4ac3fa0aed0ff;
  0x10b16e23a89a9c782eb3ac24b339874870f2c28881ad9671f2808ca0ddf85f1a;
  0x04284e3800e6694e3f463bba6768fa81edf44a1b43b6b14328c479fc9d0b3dd7;
  0x20cacc43aec4d41d72fd6692234c438dcc616fa1b2a531b509d338a2590134f9;
  0x0b233f76cc566c1ca836d32c1ebecd32cbcd5bae9f6ac940e3b5bf93a3b238f5;
  0x26e82a20748fe704a6eb502be134800d27a51fb6ec86b310daa2302371ef875b;
  0x0981fcfe54baac54439ccd0299d93a8e50a235bcf96ed527f23fde221023d544;
  0x206497f656d155232b89a1dcdc84f741c8fdf992657ff6668e6003e250525ba2;
  0x1ac410f4cf9aac1639f2d6ce154916094594813a8e9b81124b8262ecc3c06329;
  0x244b7b52a4be237bbeb91bc1be40326bd38ff6611cc7a87d21e4755dbb27d97a;
  0x280a58227ce85bb0465f4f24e0b76289a1529a4fee22428da6e19314ddf3bc81;
  0x16e4e63505df177bacfa1456b0223a7ef3d31daada6f6b6393ce81783c894117;
  0x0720241c0dd6c6d385fb7fb06d96c3625791d560e31f24cb3b8bd4e9166b395b;
  0x1534d762affa5f34b85c0c841a444b2eab2ff9be27abf422c0a067563b61ad8e;
  0x097c4118763f9f91fc7fe4d599e15ca1c853634dda944a43ad20fde87e1437d8;
  0x06a03d24a14f4c30d9d9bc40538922a71796220be15fb7202c6bb50fc25a54aa;
  0x123f19e843116be66fd91d9f7f928eba8e3902282cc6aeed000964df6d907ef9;
  0x078d5c66cdaa21420776783334a04be2a75e29bf70668fb608e771ebdab0abee;
  0x24b79cf62d3c738630d490fdfd4295083763cc86ffc038bae237e21371318366;
  0x2ed84487ed99478152b46e48924affeb37ccb6feb966876d764c442ccffd7ee4;
  0x28598da0148d15a389da39c32f42aedc5e605524a213c67ba7f7441495af9770;
  0x163f8a58698269e283c0c2b4170d2fe74497526bf8a592d281d772d6c36c99cd;
  0x0f4a8b7fe003a579692b534a2d8c218c67006834cafb8f1029f64f986e6ab7ad;
  0x0cd536d8fc67ecb3da4cb6db58ff25f68aa55c021cb5aaadbdec798f13f793c4;
  0x1f5a77a7784707a5a28c0c4c9432611085cf93ef5d37ba9b395f396dc81f833a;
  0x2ac6e14d310b276367d61cf2a4d5d5297e0664b97f21bf8a4958a41051a11842;
  0x2670a3c7944956289cfb895083c3a3659784dce1ba581ee657d9a8021b4f5ffb;
  0x1d9009e841c6e5129d052701b76ffd481b3a3bc21ee7a17383106fa5f10f7c03;
  0x2dee49d7e29188dbdf7eed039cf77b0511ab6cc5e611e9e4d3a696d41f9da25c;
  0x010cd824cd8ec841e3e1cceb23fa9cb5f3d227785a3b64531f75d10482bb1cf8;
  0x14b812a905aa89e14196b47dc52af6904293822e9a77176af599668813291273;
  0x1e9c6118c7e219e8cdfd7594762dd482024bf55c9c1539275ac7780ee94b8418;
  0x2dedd8e9074bc0b4413693915077a4d27a48e56dbe4b1f1ecaff5e6b46c4a70f;
  0x23ac44d545cdbfcb9d443ef507cad01729b015451088118caa0bd84ab4668d78;
  0x1fa9065b8741f55582a68bb3a4d61d57dd530240bbf2c25e9725da038384251f;
  0x0758771c463147b118f3af1a369b2c55741d49db71a41552b7f2871b17b6cbe2;
  0x235e8a8bccb5f289733880f2de5257e8451d2579abedff3cc06c862bfb1d6cef;
  0x015eab43a9f4d71980590c9583325ca562ffcea2890e35420fa12d54f701da8b;
  0x2526668d07cb0c169108c09e1ec84e45f2f83c5b741f624e194ef02849f4fd09;
  0x01eb56f799af469b397c6110a5950682a636b163542ddabf0be4bb90bdf74b0f;
  0x2aabd6b6f8bb5bc4d8bfe2d77e07f2b144bc09b428a9bf6c1aecbb41c9bf2f77;
  0x2b0f4175273f10bf767b57c7512bb8f2b4c43d59bccf07bde991d21a69f35913;
  0x05816fe8a870114ac4e376c3f6d10d29a804f34b1a4320430534d25cbfc3cde9;
  0x24aa773c2969e17a0a14af06dbf184489eeaadb7b43d82d00fb8a3528771f6af;
  0x02738c2b989544b730655326b560f705aa5b4291de9541a6f17cb3a61736991c;
  0x28184c7a4e97fd82723b7019eca047c6110d4d8b7d70e89fa0d2181620ef11df;
  0x283ef06e680a9473ea2b419cccd998b3e69bb119a785fd07305583e4e9cb23de;
  0x0873dddca010747e3ea5a4d9f9166de3dacf9a307677e2a5ce2d0c6294c7add8;
  0x0347050b6661e055310c145ba744e759d2311c55e6a36327bb9746914b4e54a9;
  0x252b866ca945e61d7dc25845bc910600bd4150192e1eafc9ddfb561009bf5b66;
  0x04270813f2190ffc50395ece5dc408e81e5542569b81ff50f254d75d8cb14dfb;
  0x0b90b2bd42341870d0e824692904fe9e0f0a1154e3c0d45d973a1c39ac14e91e;
  0x050832d6b790573a4b050f220fcbd0b485d5f05b88fc6005ad6cec372f4f3e9a;
  0x19667763c031ec5db9ceeda538a2f838ef3e86fd55916bc351a448085e79095c;
  0x07d67946527f49e4011475b4ac1ec33f2ee13edbbe68a5cd6b8ea12d22c93538;
  0x05fcc65042dcfe4b5219f973d97a5c47a183c364ada63fa9cd64801df9af4a03;
  0x06b7d26a40848c5a04eb52dc54c826fb34e7e9d57826d454efd213bebf20c994;
  0x2d0907a38fb7970289a839670c23458478994c2e3b6ffcf2bceebb3207d039f3;
  0x0665a7d46d31912dfc39276edff88bf8b8418739c08cd3b2d93a159dce3e1a84].
