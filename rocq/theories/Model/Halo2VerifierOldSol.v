(** Generated by tools/gen_yul.py from contracts/Halo2Verifier-3-5-g2.sol: do not edit.
    The assembly block of verifyProof (Halo2Verifier-3-5-g2.sol:71-1619), statement by statement; named memory and calldata positions
    (lines 6-65) are replaced by their values. *)
From Coq Require Import ZArith List String.
From Verif.Model Require Import Yul.
Import ListNotations.
Open Scope string_scope.
Open Scope Z_scope.

(** Halo2Verifier-3-5-g2.sol:76-86 *)
Definition old_fn_read_ec_point : func := Func ["success"; "proof_cptr"; "hash_mptr"; "q"] ["ret0"; "ret1"; "ret2"]
  [Let ["x"] (E (Cdload (Var "proof_cptr")));
   Let ["y"] (E (Cdload (Bin ADD (Var "proof_cptr") (Num 0x20))));
   Set_ ["ret0"] (E (Bin AND (Var "success") (Bin LT (Var "x") (Var "q"))));
   Set_ ["ret0"] (E (Bin AND (Var "ret0") (Bin LT (Var "y") (Var "q"))));
   Set_ ["ret0"] (E (Bin AND (Var "ret0") (Bin EQ (Ter MULMOD (Var "y") (Var "y") (Var "q")) (Ter ADDMOD (Ter MULMOD (Var "x") (Ter MULMOD (Var "x") (Var "x") (Var "q")) (Var "q")) (Num 3) (Var "q")))));
   Mstore (Var "hash_mptr") (Var "x");
   Mstore (Bin ADD (Var "hash_mptr") (Num 0x20)) (Var "y");
   Set_ ["ret1"] (E (Bin ADD (Var "proof_cptr") (Num 0x40)));
   Set_ ["ret2"] (E (Bin ADD (Var "hash_mptr") (Num 0x40)))].

(** Halo2Verifier-3-5-g2.sol:92-98 *)
Definition old_fn_squeeze_challenge : func := Func ["challenge_mptr"; "hash_mptr"; "r"] ["ret0"; "ret1"]
  [Let ["hash"] (E (Keccak (Num 0x00) (Var "hash_mptr")));
   Mstore (Var "challenge_mptr") (Bin MOD (Var "hash") (Var "r"));
   Mstore (Num 0x00) (Var "hash");
   Set_ ["ret0"] (E (Bin ADD (Var "challenge_mptr") (Num 0x20)));
   Set_ ["ret1"] (E (Num 0x20))].

(** Halo2Verifier-3-5-g2.sol:105-111 *)
Definition old_fn_squeeze_challenge_cont : func := Func ["challenge_mptr"; "r"] ["ret"]
  [Mstore8 (Num 0x20) (Num 0x01);
   Let ["hash"] (E (Keccak (Num 0x00) (Num 0x21)));
   Mstore (Var "challenge_mptr") (Bin MOD (Var "hash") (Var "r"));
   Mstore (Num 0x00) (Var "hash");
   Set_ ["ret"] (E (Bin ADD (Var "challenge_mptr") (Num 0x20)))].

(** Halo2Verifier-3-5-g2.sol:115-158 *)
Definition old_fn_batch_invert : func := Func ["success"; "mptr_start"; "mptr_end"; "r"] ["ret"]
  [Let ["gp_mptr"] (E (Var "mptr_end"));
   Let ["gp"] (E (Mload (Var "mptr_start")));
   Let ["mptr"] (E (Bin ADD (Var "mptr_start") (Num 0x20)));
   For [] (Bin LT (Var "mptr") (Bin SUB (Var "mptr_end") (Num 0x20))) []
   [Set_ ["gp"] (E (Ter MULMOD (Var "gp") (Mload (Var "mptr")) (Var "r")));
   Mstore (Var "gp_mptr") (Var "gp");
   Set_ ["mptr"] (E (Bin ADD (Var "mptr") (Num 0x20)));
   Set_ ["gp_mptr"] (E (Bin ADD (Var "gp_mptr") (Num 0x20)))];
   Set_ ["gp"] (E (Ter MULMOD (Var "gp") (Mload (Var "mptr")) (Var "r")));
   Mstore (Var "gp_mptr") (Num 0x20);
   Mstore (Bin ADD (Var "gp_mptr") (Num 0x20)) (Num 0x20);
   Mstore (Bin ADD (Var "gp_mptr") (Num 0x40)) (Num 0x20);
   Mstore (Bin ADD (Var "gp_mptr") (Num 0x60)) (Var "gp");
   Mstore (Bin ADD (Var "gp_mptr") (Num 0x80)) (Bin SUB (Var "r") (Num 2));
   Mstore (Bin ADD (Var "gp_mptr") (Num 0xa0)) (Var "r");
   Set_ ["ret"] (AndStatic (Var "success") (Num 0x05) (Var "gp_mptr") (Num 0xc0) (Var "gp_mptr") (Num 0x20));
   Let ["all_inv"] (E (Mload (Var "gp_mptr")));
   Let ["first_mptr"] (E (Var "mptr_start"));
   Let ["second_mptr"] (E (Bin ADD (Var "first_mptr") (Num 0x20)));
   Set_ ["gp_mptr"] (E (Bin SUB (Var "gp_mptr") (Num 0x20)));
   For [] (Bin LT (Var "second_mptr") (Var "mptr")) []
   [Let ["inv"] (E (Ter MULMOD (Var "all_inv") (Mload (Var "gp_mptr")) (Var "r")));
   Set_ ["all_inv"] (E (Ter MULMOD (Var "all_inv") (Mload (Var "mptr")) (Var "r")));
   Mstore (Var "mptr") (Var "inv");
   Set_ ["mptr"] (E (Bin SUB (Var "mptr") (Num 0x20)));
   Set_ ["gp_mptr"] (E (Bin SUB (Var "gp_mptr") (Num 0x20)))];
   Let ["inv_first"] (E (Ter MULMOD (Var "all_inv") (Mload (Var "second_mptr")) (Var "r")));
   Let ["inv_second"] (E (Ter MULMOD (Var "all_inv") (Mload (Var "first_mptr")) (Var "r")));
   Mstore (Var "first_mptr") (Var "inv_first");
   Mstore (Var "second_mptr") (Var "inv_second")].

(** Halo2Verifier-3-5-g2.sol:162-166 *)
Definition old_fn_ec_add_acc : func := Func ["success"; "x"; "y"] ["ret"]
  [Mstore (Num 0x40) (Var "x");
   Mstore (Num 0x60) (Var "y");
   Set_ ["ret"] (AndStatic (Var "success") (Num 0x06) (Num 0x00) (Num 0x80) (Num 0x00) (Num 0x40))].

(** Halo2Verifier-3-5-g2.sol:169-172 *)
Definition old_fn_ec_mul_acc : func := Func ["success"; "scalar"] ["ret"]
  [Mstore (Num 0x40) (Var "scalar");
   Set_ ["ret"] (AndStatic (Var "success") (Num 0x07) (Num 0x00) (Num 0x60) (Num 0x00) (Num 0x40))].

(** Halo2Verifier-3-5-g2.sol:176-180 *)
Definition old_fn_ec_add_tmp : func := Func ["success"; "x"; "y"] ["ret"]
  [Mstore (Num 0xc0) (Var "x");
   Mstore (Num 0xe0) (Var "y");
   Set_ ["ret"] (AndStatic (Var "success") (Num 0x06) (Num 0x80) (Num 0x80) (Num 0x80) (Num 0x40))].

(** Halo2Verifier-3-5-g2.sol:184-187 *)
Definition old_fn_ec_mul_tmp : func := Func ["success"; "scalar"] ["ret"]
  [Mstore (Num 0xc0) (Var "scalar");
   Set_ ["ret"] (AndStatic (Var "success") (Num 0x07) (Num 0x80) (Num 0x60) (Num 0x80) (Num 0x40))].

(** Halo2Verifier-3-5-g2.sol:191-206 *)
Definition old_fn_ec_pairing : func := Func ["success"; "lhs_x"; "lhs_y"; "rhs_x"; "rhs_y"] ["ret"]
  [Mstore (Num 0x00) (Var "lhs_x");
   Mstore (Num 0x20) (Var "lhs_y");
   Mstore (Num 0x40) (Mload (Num 0x0860));
   Mstore (Num 0x60) (Mload (Num 0x0880));
   Mstore (Num 0x80) (Mload (Num 0x08a0));
   Mstore (Num 0xa0) (Mload (Num 0x08c0));
   Mstore (Num 0xc0) (Var "rhs_x");
   Mstore (Num 0xe0) (Var "rhs_y");
   Mstore (Num 0x100) (Mload (Num 0x08e0));
   Mstore (Num 0x120) (Mload (Num 0x0900));
   Mstore (Num 0x140) (Mload (Num 0x0920));
   Mstore (Num 0x160) (Mload (Num 0x0940));
   Set_ ["ret"] (AndStatic (Var "success") (Num 0x08) (Num 0x00) (Num 0x180) (Num 0x00) (Num 0x20));
   Set_ ["ret"] (E (Bin AND (Var "ret") (Mload (Num 0x00))))].

Definition old_functions : list (string * func) := [("read_ec_point", old_fn_read_ec_point); ("squeeze_challenge", old_fn_squeeze_challenge); ("squeeze_challenge_cont", old_fn_squeeze_challenge_cont); ("batch_invert", old_fn_batch_invert); ("ec_add_acc", old_fn_ec_add_acc); ("ec_mul_acc", old_fn_ec_mul_acc); ("ec_add_tmp", old_fn_ec_add_tmp); ("ec_mul_tmp", old_fn_ec_mul_tmp); ("ec_pairing", old_fn_ec_pairing)].

(** Halo2Verifier-3-5-g2.sol:209 *)
Definition old_main_00 : stmt := Let ["q"] (E (Num 21888242871839275222246405745257275088696311157297823662689037894645226208583)).

(** Halo2Verifier-3-5-g2.sol:210 *)
Definition old_main_01 : stmt := Let ["r"] (E (Num 21888242871839275222246405745257275088548364400416034343698204186575808495617)).

(** Halo2Verifier-3-5-g2.sol:213 *)
Definition old_main_02 : stmt := Let ["success"] (E (Num 1)).

(** Halo2Verifier-3-5-g2.sol:215-442 *)
Definition old_main_03 : stmt := Block [Mstore (Num 0x06c0) (Num 0x10fa432e037aeb212cb11a4cf27da42780d01d0a6e1fc881c85ced8145ec5275);
   Mstore (Num 0x06e0) (Num 0x0000000000000000000000000000000000000000000000000000000000000031);
   Set_ ["success"] (E (Bin AND (Var "success") (Bin EQ (Num 0x1180) (Cdload (Num 0x44)))));
   Let ["num_instances"] (E (Mload (Num 0x06e0)));
   Set_ ["success"] (E (Bin AND (Var "success") (Bin EQ (Var "num_instances") (Cdload (Num 0x11e4)))));
   Mstore (Num 0x00) (Mload (Num 0x06c0));
   Let ["hash_mptr"] (E (Num 0x20));
   Let ["instance_cptr"] (E (Num 0x1204));
   For [Let ["instance_cptr_end"] (E (Bin ADD (Var "instance_cptr") (Bin MUL (Num 0x20) (Var "num_instances"))))] (Bin LT (Var "instance_cptr") (Var "instance_cptr_end")) []
   [Let ["instance"] (E (Cdload (Var "instance_cptr")));
   Set_ ["success"] (E (Bin AND (Var "success") (Bin LT (Var "instance") (Var "r"))));
   Mstore (Var "hash_mptr") (Var "instance");
   Set_ ["instance_cptr"] (E (Bin ADD (Var "instance_cptr") (Num 0x20)));
   Set_ ["hash_mptr"] (E (Bin ADD (Var "hash_mptr") (Num 0x20)))];
   Let ["proof_cptr"] (E (Num 0x64));
   Let ["challenge_mptr"] (E (Num 0x1160));
   For [Let ["proof_cptr_end"] (E (Bin ADD (Var "proof_cptr") (Num 0x0140)))] (Bin LT (Var "proof_cptr") (Var "proof_cptr_end")) []
   [Set_ ["success"; "proof_cptr"; "hash_mptr"] (Call "read_ec_point" [(Var "success"); (Var "proof_cptr"); (Var "hash_mptr"); (Var "q")])];
   Set_ ["challenge_mptr"; "hash_mptr"] (Call "squeeze_challenge" [(Var "challenge_mptr"); (Var "hash_mptr"); (Var "r")]);
   For [Let ["proof_cptr_end"] (E (Bin ADD (Var "proof_cptr") (Num 0x0280)))] (Bin LT (Var "proof_cptr") (Var "proof_cptr_end")) []
   [Set_ ["success"; "proof_cptr"; "hash_mptr"] (Call "read_ec_point" [(Var "success"); (Var "proof_cptr"); (Var "hash_mptr"); (Var "q")])];
   Set_ ["challenge_mptr"; "hash_mptr"] (Call "squeeze_challenge" [(Var "challenge_mptr"); (Var "hash_mptr"); (Var "r")]);
   Set_ ["challenge_mptr"] (Call "squeeze_challenge_cont" [(Var "challenge_mptr"); (Var "r")]);
   For [Let ["proof_cptr_end"] (E (Bin ADD (Var "proof_cptr") (Num 0x0240)))] (Bin LT (Var "proof_cptr") (Var "proof_cptr_end")) []
   [Set_ ["success"; "proof_cptr"; "hash_mptr"] (Call "read_ec_point" [(Var "success"); (Var "proof_cptr"); (Var "hash_mptr"); (Var "q")])];
   Set_ ["challenge_mptr"; "hash_mptr"] (Call "squeeze_challenge" [(Var "challenge_mptr"); (Var "hash_mptr"); (Var "r")]);
   For [Let ["proof_cptr_end"] (E (Bin ADD (Var "proof_cptr") (Num 0x0140)))] (Bin LT (Var "proof_cptr") (Var "proof_cptr_end")) []
   [Set_ ["success"; "proof_cptr"; "hash_mptr"] (Call "read_ec_point" [(Var "success"); (Var "proof_cptr"); (Var "hash_mptr"); (Var "q")])];
   Set_ ["challenge_mptr"; "hash_mptr"] (Call "squeeze_challenge" [(Var "challenge_mptr"); (Var "hash_mptr"); (Var "r")]);
   For [Let ["proof_cptr_end"] (E (Bin ADD (Var "proof_cptr") (Num 0x09c0)))] (Bin LT (Var "proof_cptr") (Var "proof_cptr_end")) []
   [Let ["eval"] (E (Cdload (Var "proof_cptr")));
   Set_ ["success"] (E (Bin AND (Var "success") (Bin LT (Var "eval") (Var "r"))));
   Mstore (Var "hash_mptr") (Var "eval");
   Set_ ["proof_cptr"] (E (Bin ADD (Var "proof_cptr") (Num 0x20)));
   Set_ ["hash_mptr"] (E (Bin ADD (Var "hash_mptr") (Num 0x20)))];
   Set_ ["challenge_mptr"; "hash_mptr"] (Call "squeeze_challenge" [(Var "challenge_mptr"); (Var "hash_mptr"); (Var "r")]);
   Set_ ["challenge_mptr"] (Call "squeeze_challenge_cont" [(Var "challenge_mptr"); (Var "r")]);
   Set_ ["success"; "proof_cptr"; "hash_mptr"] (Call "read_ec_point" [(Var "success"); (Var "proof_cptr"); (Var "hash_mptr"); (Var "q")]);
   Set_ ["challenge_mptr"; "hash_mptr"] (Call "squeeze_challenge" [(Var "challenge_mptr"); (Var "hash_mptr"); (Var "r")]);
   Set_ ["success"; "proof_cptr"; "hash_mptr"] (Call "read_ec_point" [(Var "success"); (Var "proof_cptr"); (Var "hash_mptr"); (Var "q")]);
   Mstore (Num 0x06c0) (Num 0x10fa432e037aeb212cb11a4cf27da42780d01d0a6e1fc881c85ced8145ec5275);
   Mstore (Num 0x06e0) (Num 0x0000000000000000000000000000000000000000000000000000000000000031);
   Mstore (Num 0x0700) (Num 0x0000000000000000000000000000000000000000000000000000000000000012);
   Mstore (Num 0x0720) (Num 0x30644259cd94e7dd5045d7a27013b7fcd21c9e3b7fa75222e7bda49b729b0401);
   Mstore (Num 0x0740) (Num 0x0f60c8fe0414cb9379b2d39267945f6bd60d06a05216231b26a9fcf88ddbfebe);
   Mstore (Num 0x0760) (Num 0x0e1165d221ab96da2bb4efe1b8fbf541b58d00917384a41bc6ab624d6d3e2b76);
   Mstore (Num 0x0780) (Num 0x15a9c33a6d34b8fb8e5c3ff61814ca50c878ed14bc17d9442cd5c127bf33fd6d);
   Mstore (Num 0x07a0) (Num 0x0000000000000000000000000000000000000000000000000000000000000000);
   Mstore (Num 0x07c0) (Num 0x0000000000000000000000000000000000000000000000000000000000000000);
   Mstore (Num 0x07e0) (Num 0x0000000000000000000000000000000000000000000000000000000000000000);
   Mstore (Num 0x0800) (Num 0x0000000000000000000000000000000000000000000000000000000000000000);
   Mstore (Num 0x0820) (Num 0x0000000000000000000000000000000000000000000000000000000000000001);
   Mstore (Num 0x0840) (Num 0x0000000000000000000000000000000000000000000000000000000000000002);
   Mstore (Num 0x0860) (Num 0x198e9393920d483a7260bfb731fb5d25f1aa493335a9e71297e485b7aef312c2);
   Mstore (Num 0x0880) (Num 0x1800deef121f1e76426a00665e5c4479674322d4f75edadd46debd5cd992f6ed);
   Mstore (Num 0x08a0) (Num 0x090689d0585ff075ec9e99ad690c3395bc4b313370b38ef355acdadcd122975b);
   Mstore (Num 0x08c0) (Num 0x12c85ea5db8c6deb4aab71808dcb408fe3d1e7690c43d37b4ce6cc0166fa7daa);
   Mstore (Num 0x08e0) (Num 0x186282957db913abd99f91db59fe69922e95040603ef44c0bd7aa3adeef8f5ac);
   Mstore (Num 0x0900) (Num 0x17944351223333f260ddc3b4af45191b856689eda9eab5cbcddbbe570ce860d2);
   Mstore (Num 0x0920) (Num 0x06d971ff4a7467c3ec596ed6efc674572e32fd6f52b721f97e35b0b3d3546753);
   Mstore (Num 0x0940) (Num 0x06ecdb9f9567f59ed2eee36e1e1d58797fd13cc97fafc2910f5e8a12f202fa9a);
   Mstore (Num 0x0960) (Num 0x00bc6388571acab02cda68e5a8bc270814901720cfbea81eb8724c7af531c569);
   Mstore (Num 0x0980) (Num 0x200a4872e44dca25c35665326a6f93e4d9da70ff6973dcb9d5e0b42c3ce116af);
   Mstore (Num 0x09a0) (Num 0x282550d9ee373535c2ebf3b036f697019936b55058505d0f6189ec8ea21c9acc);
   Mstore (Num 0x09c0) (Num 0x272751b797197a5724f134145c2498e38007e1f95d4be900adadc6d5b1c3b85b);
   Mstore (Num 0x09e0) (Num 0x0a983c13efedb3dbde09575a38b084d7cd92bf31ef63a789aa177d6c67496bbd);
   Mstore (Num 0x0a00) (Num 0x0612474eab97ce1ae19deb0c16119696af7dfa3370f305bf2ab12c7cce5bbfa1);
   Mstore (Num 0x0a20) (Num 0x27e5aefcf48fab4ca7696853e4bc71988a1cfa552ef96c7a9c87c1373ff18922);
   Mstore (Num 0x0a40) (Num 0x21c6a2115445443dae670a95f07cdb9f4a88fd5c6a4055a07d5bfdf99da1fb1c);
   Mstore (Num 0x0a60) (Num 0x0112411ff18c94adbe82d1decc4ced25404ddf0493d5352735f3eb1e577443c8);
   Mstore (Num 0x0a80) (Num 0x20493c257486ef4cf2eb693e7359acbf6713b3d6b534ef747fae4668d2505af7);
   Mstore (Num 0x0aa0) (Num 0x15de9e05b85fac65a2c4a7f8778b46fcb7b8bef3f363b35f4ad5385717f7a294);
   Mstore (Num 0x0ac0) (Num 0x0852909412087958094606c7579c89ab450c5fad58b710151d9be674658304bd);
   Mstore (Num 0x0ae0) (Num 0x0659b386cf7ccd875ef11622bd16801e87013b56d4a71f49c41f6b6f93d8f3f9);
   Mstore (Num 0x0b00) (Num 0x0e8975b7bf3282d0f86a202a2761b7ad8a2ec5ee44126eff020da83df3dacabc);
   Mstore (Num 0x0b20) (Num 0x248ba7caade3d9c870a0fd86122b4f12d4159fff151e046c7329e29f8670b3f0);
   Mstore (Num 0x0b40) (Num 0x0b53e3ddefc2b34c91767a6bcd90b6ab63986a6fc85ba0f82ff3ede59db95aa3);
   Mstore (Num 0x0b60) (Num 0x0280950dcf4c88569d4ac09d08a64b1d7e5dda9a92025f3a67831b52cc54f5d3);
   Mstore (Num 0x0b80) (Num 0x0159a84799c5a2b70e801b709733a9452e0dbc3bcc5fec2b11a17c246fff8172);
   Mstore (Num 0x0ba0) (Num 0x081a1d562f38b857fb7e200bb455094a011510db9ac0352f4a01fee1674d134d);
   Mstore (Num 0x0bc0) (Num 0x19421a4d1ab26b52bd8d1826af0c406339c8a4859e24c56dd25a7d7a72632b40);
   Mstore (Num 0x0be0) (Num 0x098055bc990ea7766dbcd9e68cab85424dbc1e35b475b828ac74bad04a0e4993);
   Mstore (Num 0x0c00) (Num 0x2dff61482366aedf115b5620ecba51925967fd2b76f882535d3a8440bb9e632e);
   Mstore (Num 0x0c20) (Num 0x01eaa7a4310ac5481d5c765ac7c2c7f666aaf00d5a7ee700c9237f27640ce87e);
   Mstore (Num 0x0c40) (Num 0x1cf4fb417ac9b7bcbd4c1ae5732bbc4b9c1c7451b3516e4373472a3b7086e042);
   Mstore (Num 0x0c60) (Num 0x129c2d2d6b2ca3abdb966561c4d83b5450580863ede453740aa16236a7d0e950);
   Mstore (Num 0x0c80) (Num 0x221ceefd36ad52d134757be39ef99bd1ac7f7662903f6eec91361c985edc0bdd);
   Mstore (Num 0x0ca0) (Num 0x2faf1b96f708613100be4ceacf3355f7c17e400039e0f1cfed7ea6e604ff06ab);
   Mstore (Num 0x0cc0) (Num 0x0c0fda12449a8d3d713fb41226f27ea2c6b5906183098e875d2b94d2d7b96898);
   Mstore (Num 0x0ce0) (Num 0x0c13a3ad660e1e595d1e8a5363868a756b46b1170d2c968cfe2dcf2adde2b1fa);
   Mstore (Num 0x0d00) (Num 0x239e78146447abab3b8d795fce6242eb93a0c9b3b919b25e07f8a45cc34f3868);
   Mstore (Num 0x0d20) (Num 0x051afc90418b9a6baed57d365ffc501a067eec32836012c08a51763f50d3fab2);
   Mstore (Num 0x0d40) (Num 0x12ddc1d2cf2b2227bfff9ab73f8336caaa1e28b2ad70c8d1a1d78ab85c417e7a);
   Mstore (Num 0x0d60) (Num 0x29536a715aee15e71ea8ee40775fec828788e3219b7bcfea25394004544d23f1);
   Mstore (Num 0x0d80) (Num 0x1add119c8075388eb7791920449c32378eb8f17a43043aebb88f498379e4b568);
   Mstore (Num 0x0da0) (Num 0x1426965bfa5443bbdfb8d1101a5ab0e734161ecc1be23820178e219a0975b4e5);
   Mstore (Num 0x0dc0) (Num 0x034721b25e503eb1233d61eef6f9102d6c7c975f5fbf181dc8146df122db72d5);
   Mstore (Num 0x0de0) (Num 0x0c520ec975d97565332531a187896cc85216282f781fba4ad72373d3f9091fd6);
   Mstore (Num 0x0e00) (Num 0x224bf5aae92cae9ed520b34bf3657ca187a7d0f37503db8fe385f2b6e358acca);
   Mstore (Num 0x0e20) (Num 0x16e3e5fa3f06db1c4b656ded3d30d5ad9c0f340c87f989c32ff8039cb1c194a2);
   Mstore (Num 0x0e40) (Num 0x12fc34ef6aa6abf30bd4b81119f6e9048ccd310523a6026867c5233976781b3a);
   Mstore (Num 0x0e60) (Num 0x15e4d60697a9564cb96c64b988d71b510fb41d872ed625fd097a0fa286adca55);
   Mstore (Num 0x0e80) (Num 0x1e97db0425468e005063704e9fdd4a924323ad25180dc97a2bce0db16d5affd9);
   Mstore (Num 0x0ea0) (Num 0x269ff0bc3c43011b5c373d79f21808e67d938665b4290f14c0fbd49150ce6b73);
   Mstore (Num 0x0ec0) (Num 0x178c99b923272f94ddf9df039b074efa414c4e6759600b744827d4355f15148d);
   Mstore (Num 0x0ee0) (Num 0x0db0f43b0d089dae35c35c99ecd6195c0235029f6fd7bd9c03e5e78ca6030ec8);
   Mstore (Num 0x0f00) (Num 0x21d212f61ce096cced931103f4dc96f3979b3923351c7becfdedff8c9ac0b697);
   Mstore (Num 0x0f20) (Num 0x1d5f006ae4015b1e4cbc02635a094c8c6de11f0b04eaae28e704a1ead9e9933c);
   Mstore (Num 0x0f40) (Num 0x304b38c2f74d9c4eec40422e16941d546b8ddd34d49f2d34256d7d22f2579481);
   Mstore (Num 0x0f60) (Num 0x0c705651a938f92b8a38538eaa996e5867332ef8078478ff5a6aa044207a5ca4);
   Mstore (Num 0x0f80) (Num 0x071ecb2aa841f16186b855dff89e57d0583aa24d18153b1cbba9dbbf0a1bb145);
   Mstore (Num 0x0fa0) (Num 0x21ecda48829469f0b2b7b2af1aa4a89cbeedc5666d9ca5d86149f79fcad51b7c);
   Mstore (Num 0x0fc0) (Num 0x271026109abc06e58f82abe9bcd84f8cad084da5b66f307c1e24c83ca2f5528f);
   Mstore (Num 0x0fe0) (Num 0x05c4977ef409a1eb678fb80fa466d80fe1aeb5bd63d8fb21d3715f5696b6370f);
   Mstore (Num 0x1000) (Num 0x2aeee08b63d24ffeadf6505b894e1ecfd3e50b33eb5331c290f222d2ef3137cf);
   Mstore (Num 0x1020) (Num 0x2a74e21bdedfb9fd48b95682b006f8292989f80e8e5fc7c7e946d1fa8fd5aa80);
   Mstore (Num 0x1040) (Num 0x2c883f46d50365189cb3c7b8d31012e97ab3cc0c2f43498808767c3b2c678ae3);
   Mstore (Num 0x1060) (Num 0x0e598be5b2d6744a589d3f2997a7bf0f033318156a9b2f947946df18a27ff6dc);
   Mstore (Num 0x1080) (Num 0x2e46c59b3c5fc53fbe07026dec3b903debf984f4a48933cc773e9f155abadb10);
   Mstore (Num 0x10a0) (Num 0x1df9d3063bdb368ae737da7b2e62d0ac6af9eadb17e234ae430732c881b7e066);
   Mstore (Num 0x10c0) (Num 0x1af603ccc57869a723e531dfd8ce2f0b1a2c3ae5dc7f2d02e92b2c49bcb6a843);
   Mstore (Num 0x10e0) (Num 0x13ab267051d6a77d28fee208708d3b7e8bb36637e441724a5cb96095ed50187a);
   Mstore (Num 0x1100) (Num 0x262f5493e2aa9d750f56a70fa203b4658b7c9c058097abc6f205bc05941da0aa);
   Mstore (Num 0x1120) (Num 0x01a7837e6470babb230978a3079af34e382588caaf1c0c791e81f37222798929);
   Mstore (Num 0x1140) (Num 0x155c9bea95acf37b018196229c82254163940010ab902b96a4dcde67c6a99a6f);
   If (Mload (Num 0x07a0)) [Let ["num_limbs"] (E (Mload (Num 0x07e0)));
   Let ["num_limb_bits"] (E (Mload (Num 0x0800)));
   Let ["cptr"] (E (Bin ADD (Num 0x1204) (Bin MUL (Mload (Num 0x07c0)) (Num 0x20))));
   Let ["lhs_y_off"] (E (Bin MUL (Var "num_limbs") (Num 0x20)));
   Let ["rhs_x_off"] (E (Bin MUL (Var "lhs_y_off") (Num 2)));
   Let ["rhs_y_off"] (E (Bin MUL (Var "lhs_y_off") (Num 3)));
   Let ["lhs_x"] (E (Cdload (Var "cptr")));
   Let ["lhs_y"] (E (Cdload (Bin ADD (Var "cptr") (Var "lhs_y_off"))));
   Let ["rhs_x"] (E (Cdload (Bin ADD (Var "cptr") (Var "rhs_x_off"))));
   Let ["rhs_y"] (E (Cdload (Bin ADD (Var "cptr") (Var "rhs_y_off"))));
   For [Let ["cptr_end"] (E (Bin ADD (Var "cptr") (Bin MUL (Num 0x20) (Var "num_limbs"))));
   Let ["shift"] (E (Var "num_limb_bits"))] (Bin LT (Var "cptr") (Var "cptr_end")) []
   [Set_ ["cptr"] (E (Bin ADD (Var "cptr") (Num 0x20)));
   Set_ ["lhs_x"] (E (Bin ADD (Var "lhs_x") (Bin SHL (Var "shift") (Cdload (Var "cptr")))));
   Set_ ["lhs_y"] (E (Bin ADD (Var "lhs_y") (Bin SHL (Var "shift") (Cdload (Bin ADD (Var "cptr") (Var "lhs_y_off"))))));
   Set_ ["rhs_x"] (E (Bin ADD (Var "rhs_x") (Bin SHL (Var "shift") (Cdload (Bin ADD (Var "cptr") (Var "rhs_x_off"))))));
   Set_ ["rhs_y"] (E (Bin ADD (Var "rhs_y") (Bin SHL (Var "shift") (Cdload (Bin ADD (Var "cptr") (Var "rhs_y_off"))))));
   Set_ ["shift"] (E (Bin ADD (Var "shift") (Var "num_limb_bits")))];
   Set_ ["success"] (E (Bin AND (Var "success") (Bin EQ (Ter MULMOD (Var "lhs_y") (Var "lhs_y") (Var "q")) (Ter ADDMOD (Ter MULMOD (Var "lhs_x") (Ter MULMOD (Var "lhs_x") (Var "lhs_x") (Var "q")) (Var "q")) (Num 3) (Var "q")))));
   Set_ ["success"] (E (Bin AND (Var "success") (Bin EQ (Ter MULMOD (Var "rhs_y") (Var "rhs_y") (Var "q")) (Ter ADDMOD (Ter MULMOD (Var "rhs_x") (Ter MULMOD (Var "rhs_x") (Var "rhs_x") (Var "q")) (Var "q")) (Num 3) (Var "q")))));
   Mstore (Num 0x1260) (Var "lhs_x");
   Mstore (Num 0x1280) (Var "lhs_y");
   Mstore (Num 0x12a0) (Var "rhs_x");
   Mstore (Num 0x12c0) (Var "rhs_y")];
   Pop (Var "q")].

(** Halo2Verifier-3-5-g2.sol:445-447 *)
Definition old_main_04 : stmt := If (Iszero (Var "success")) [Revert (Num 0) (Num 0)].

(** Halo2Verifier-3-5-g2.sol:450-527 *)
Definition old_main_05 : stmt := Block [Let ["k"] (E (Mload (Num 0x0700)));
   Let ["x"] (E (Mload (Num 0x11e0)));
   Let ["x_n"] (E (Var "x"));
   For [Let ["idx"] (E (Num 0))] (Bin LT (Var "idx") (Var "k")) [Set_ ["idx"] (E (Bin ADD (Var "idx") (Num 1)))]
   [Set_ ["x_n"] (E (Ter MULMOD (Var "x_n") (Var "x_n") (Var "r")))];
   Let ["omega"] (E (Mload (Num 0x0740)));
   Let ["mptr"] (E (Num 0x12e0));
   Let ["mptr_end"] (E (Bin ADD (Var "mptr") (Bin MUL (Num 0x20) (Bin ADD (Mload (Num 0x06e0)) (Num 6)))));
   If (Iszero (Mload (Num 0x06e0))) [Set_ ["mptr_end"] (E (Bin ADD (Var "mptr_end") (Num 0x20)))];
   For [Let ["pow_of_omega"] (E (Mload (Num 0x0780)))] (Bin LT (Var "mptr") (Var "mptr_end")) [Set_ ["mptr"] (E (Bin ADD (Var "mptr") (Num 0x20)))]
   [Mstore (Var "mptr") (Ter ADDMOD (Var "x") (Bin SUB (Var "r") (Var "pow_of_omega")) (Var "r"));
   Set_ ["pow_of_omega"] (E (Ter MULMOD (Var "pow_of_omega") (Var "omega") (Var "r")))];
   Let ["x_n_minus_1"] (E (Ter ADDMOD (Var "x_n") (Bin SUB (Var "r") (Num 1)) (Var "r")));
   Mstore (Var "mptr_end") (Var "x_n_minus_1");
   Set_ ["success"] (Call "batch_invert" [(Var "success"); (Num 0x12e0); (Bin ADD (Var "mptr_end") (Num 0x20)); (Var "r")]);
   Set_ ["mptr"] (E (Num 0x12e0));
   Let ["l_i_common"] (E (Ter MULMOD (Var "x_n_minus_1") (Mload (Num 0x0720)) (Var "r")));
   For [Let ["pow_of_omega"] (E (Mload (Num 0x0780)))] (Bin LT (Var "mptr") (Var "mptr_end")) [Set_ ["mptr"] (E (Bin ADD (Var "mptr") (Num 0x20)))]
   [Mstore (Var "mptr") (Ter MULMOD (Var "l_i_common") (Ter MULMOD (Mload (Var "mptr")) (Var "pow_of_omega") (Var "r")) (Var "r"));
   Set_ ["pow_of_omega"] (E (Ter MULMOD (Var "pow_of_omega") (Var "omega") (Var "r")))];
   Let ["l_blind"] (E (Mload (Bin ADD (Num 0x12e0) (Num 0x20))));
   Let ["l_i_cptr"] (E (Bin ADD (Num 0x12e0) (Num 0x40)));
   For [Let ["l_i_cptr_end"] (E (Bin ADD (Num 0x12e0) (Num 0xc0)))] (Bin LT (Var "l_i_cptr") (Var "l_i_cptr_end")) [Set_ ["l_i_cptr"] (E (Bin ADD (Var "l_i_cptr") (Num 0x20)))]
   [Set_ ["l_blind"] (E (Ter ADDMOD (Var "l_blind") (Mload (Var "l_i_cptr")) (Var "r")))];
   Let ["instance_eval"] (E (Num 0));
   For [Let ["instance_cptr"] (E (Num 0x1204));
   Let ["instance_cptr_end"] (E (Bin ADD (Var "instance_cptr") (Bin MUL (Num 0x20) (Mload (Num 0x06e0)))))] (Bin LT (Var "instance_cptr") (Var "instance_cptr_end")) [Set_ ["instance_cptr"] (E (Bin ADD (Var "instance_cptr") (Num 0x20)));
   Set_ ["l_i_cptr"] (E (Bin ADD (Var "l_i_cptr") (Num 0x20)))]
   [Set_ ["instance_eval"] (E (Ter ADDMOD (Var "instance_eval") (Ter MULMOD (Mload (Var "l_i_cptr")) (Cdload (Var "instance_cptr")) (Var "r")) (Var "r")))];
   Let ["x_n_minus_1_inv"] (E (Mload (Var "mptr_end")));
   Let ["l_last"] (E (Mload (Num 0x12e0)));
   Let ["l_0"] (E (Mload (Bin ADD (Num 0x12e0) (Num 0xc0))));
   Mstore (Num 0x12e0) (Var "x_n");
   Mstore (Num 0x1300) (Var "x_n_minus_1_inv");
   Mstore (Num 0x1320) (Var "l_last");
   Mstore (Num 0x1340) (Var "l_blind");
   Mstore (Num 0x1360) (Var "l_0");
   Mstore (Num 0x1380) (Var "instance_eval")].

(** Halo2Verifier-3-5-g2.sol:534-569 *)
Definition old_main_06_03 : stmt := Block [Let ["a_0"] (E (Cdload (Num 0x07a4)));
   Let ["f_0"] (E (Cdload (Num 0x0924)));
   Let ["var0"] (E (Ter MULMOD (Var "a_0") (Var "f_0") (Var "r")));
   Let ["a_1"] (E (Cdload (Num 0x07c4)));
   Let ["f_1"] (E (Cdload (Num 0x0944)));
   Let ["var1"] (E (Ter MULMOD (Var "a_1") (Var "f_1") (Var "r")));
   Let ["var2"] (E (Ter ADDMOD (Var "var0") (Var "var1") (Var "r")));
   Let ["a_2"] (E (Cdload (Num 0x07e4)));
   Let ["f_2"] (E (Cdload (Num 0x0964)));
   Let ["var3"] (E (Ter MULMOD (Var "a_2") (Var "f_2") (Var "r")));
   Let ["var4"] (E (Ter ADDMOD (Var "var2") (Var "var3") (Var "r")));
   Let ["a_3"] (E (Cdload (Num 0x0804)));
   Let ["f_3"] (E (Cdload (Num 0x0984)));
   Let ["var5"] (E (Ter MULMOD (Var "a_3") (Var "f_3") (Var "r")));
   Let ["var6"] (E (Ter ADDMOD (Var "var4") (Var "var5") (Var "r")));
   Let ["a_4"] (E (Cdload (Num 0x0824)));
   Let ["f_4"] (E (Cdload (Num 0x09a4)));
   Let ["var7"] (E (Ter MULMOD (Var "a_4") (Var "f_4") (Var "r")));
   Let ["var8"] (E (Ter ADDMOD (Var "var6") (Var "var7") (Var "r")));
   Let ["var9"] (E (Ter MULMOD (Var "a_0") (Var "a_1") (Var "r")));
   Let ["f_5"] (E (Cdload (Num 0x09e4)));
   Let ["var10"] (E (Ter MULMOD (Var "var9") (Var "f_5") (Var "r")));
   Let ["var11"] (E (Ter ADDMOD (Var "var8") (Var "var10") (Var "r")));
   Let ["var12"] (E (Ter MULMOD (Var "a_2") (Var "a_3") (Var "r")));
   Let ["f_6"] (E (Cdload (Num 0x0a04)));
   Let ["var13"] (E (Ter MULMOD (Var "var12") (Var "f_6") (Var "r")));
   Let ["var14"] (E (Ter ADDMOD (Var "var11") (Var "var13") (Var "r")));
   Let ["f_7"] (E (Cdload (Num 0x09c4)));
   Let ["a_4_next_1"] (E (Cdload (Num 0x0844)));
   Let ["var15"] (E (Ter MULMOD (Var "f_7") (Var "a_4_next_1") (Var "r")));
   Let ["var16"] (E (Ter ADDMOD (Var "var14") (Var "var15") (Var "r")));
   Let ["f_8"] (E (Cdload (Num 0x0a24)));
   Let ["var17"] (E (Ter ADDMOD (Var "var16") (Var "f_8") (Var "r")));
   Set_ ["quotient_eval_numer"] (E (Var "var17"))].

(** Halo2Verifier-3-5-g2.sol:570-600 *)
Definition old_main_06_04 : stmt := Block [Let ["f_20"] (E (Cdload (Num 0x0ba4)));
   Let ["a_0"] (E (Cdload (Num 0x07a4)));
   Let ["f_12"] (E (Cdload (Num 0x0b04)));
   Let ["var0"] (E (Ter ADDMOD (Var "a_0") (Var "f_12") (Var "r")));
   Let ["var1"] (E (Ter MULMOD (Var "var0") (Var "var0") (Var "r")));
   Let ["var2"] (E (Ter MULMOD (Var "var1") (Var "var1") (Var "r")));
   Let ["var3"] (E (Ter MULMOD (Var "var2") (Var "var0") (Var "r")));
   Let ["var4"] (E (Ter MULMOD (Var "var3") (Num 0x109b7f411ba0e4c9b2b70caf5c36a7b194be7c11ad24378bfedb68592ba8118b) (Var "r")));
   Let ["a_1"] (E (Cdload (Num 0x07c4)));
   Let ["f_13"] (E (Cdload (Num 0x0b24)));
   Let ["var5"] (E (Ter ADDMOD (Var "a_1") (Var "f_13") (Var "r")));
   Let ["var6"] (E (Ter MULMOD (Var "var5") (Var "var5") (Var "r")));
   Let ["var7"] (E (Ter MULMOD (Var "var6") (Var "var6") (Var "r")));
   Let ["var8"] (E (Ter MULMOD (Var "var7") (Var "var5") (Var "r")));
   Let ["var9"] (E (Ter MULMOD (Var "var8") (Num 0x16ed41e13bb9c0c66ae119424fddbcbc9314dc9fdbdeea55d6c64543dc4903e0) (Var "r")));
   Let ["var10"] (E (Ter ADDMOD (Var "var4") (Var "var9") (Var "r")));
   Let ["a_2"] (E (Cdload (Num 0x07e4)));
   Let ["f_14"] (E (Cdload (Num 0x0b44)));
   Let ["var11"] (E (Ter ADDMOD (Var "a_2") (Var "f_14") (Var "r")));
   Let ["var12"] (E (Ter MULMOD (Var "var11") (Var "var11") (Var "r")));
   Let ["var13"] (E (Ter MULMOD (Var "var12") (Var "var12") (Var "r")));
   Let ["var14"] (E (Ter MULMOD (Var "var13") (Var "var11") (Var "r")));
   Let ["var15"] (E (Ter MULMOD (Var "var14") (Num 0x2b90bba00fca0589f617e7dcbfe82e0df706ab640ceb247b791a93b74e36736d) (Var "r")));
   Let ["var16"] (E (Ter ADDMOD (Var "var10") (Var "var15") (Var "r")));
   Let ["a_0_next_1"] (E (Cdload (Num 0x0864)));
   Let ["var17"] (E (Bin SUB (Var "r") (Var "a_0_next_1")));
   Let ["var18"] (E (Ter ADDMOD (Var "var16") (Var "var17") (Var "r")));
   Let ["var19"] (E (Ter MULMOD (Var "f_20") (Var "var18") (Var "r")));
   Set_ ["quotient_eval_numer"] (E (Ter ADDMOD (Ter MULMOD (Var "quotient_eval_numer") (Var "y") (Var "r")) (Var "var19") (Var "r")))].

(** Halo2Verifier-3-5-g2.sol:601-631 *)
Definition old_main_06_05 : stmt := Block [Let ["f_20"] (E (Cdload (Num 0x0ba4)));
   Let ["a_0"] (E (Cdload (Num 0x07a4)));
   Let ["f_12"] (E (Cdload (Num 0x0b04)));
   Let ["var0"] (E (Ter ADDMOD (Var "a_0") (Var "f_12") (Var "r")));
   Let ["var1"] (E (Ter MULMOD (Var "var0") (Var "var0") (Var "r")));
   Let ["var2"] (E (Ter MULMOD (Var "var1") (Var "var1") (Var "r")));
   Let ["var3"] (E (Ter MULMOD (Var "var2") (Var "var0") (Var "r")));
   Let ["var4"] (E (Ter MULMOD (Var "var3") (Num 0x2969f27eed31a480b9c36c764379dbca2cc8fdd1415c3dded62940bcde0bd771) (Var "r")));
   Let ["a_1"] (E (Cdload (Num 0x07c4)));
   Let ["f_13"] (E (Cdload (Num 0x0b24)));
   Let ["var5"] (E (Ter ADDMOD (Var "a_1") (Var "f_13") (Var "r")));
   Let ["var6"] (E (Ter MULMOD (Var "var5") (Var "var5") (Var "r")));
   Let ["var7"] (E (Ter MULMOD (Var "var6") (Var "var6") (Var "r")));
   Let ["var8"] (E (Ter MULMOD (Var "var7") (Var "var5") (Var "r")));
   Let ["var9"] (E (Ter MULMOD (Var "var8") (Num 0x2e2419f9ec02ec394c9871c832963dc1b89d743c8c7b964029b2311687b1fe23) (Var "r")));
   Let ["var10"] (E (Ter ADDMOD (Var "var4") (Var "var9") (Var "r")));
   Let ["a_2"] (E (Cdload (Num 0x07e4)));
   Let ["f_14"] (E (Cdload (Num 0x0b44)));
   Let ["var11"] (E (Ter ADDMOD (Var "a_2") (Var "f_14") (Var "r")));
   Let ["var12"] (E (Ter MULMOD (Var "var11") (Var "var11") (Var "r")));
   Let ["var13"] (E (Ter MULMOD (Var "var12") (Var "var12") (Var "r")));
   Let ["var14"] (E (Ter MULMOD (Var "var13") (Var "var11") (Var "r")));
   Let ["var15"] (E (Ter MULMOD (Var "var14") (Num 0x101071f0032379b697315876690f053d148d4e109f5fb065c8aacc55a0f89bfa) (Var "r")));
   Let ["var16"] (E (Ter ADDMOD (Var "var10") (Var "var15") (Var "r")));
   Let ["a_1_next_1"] (E (Cdload (Num 0x0884)));
   Let ["var17"] (E (Bin SUB (Var "r") (Var "a_1_next_1")));
   Let ["var18"] (E (Ter ADDMOD (Var "var16") (Var "var17") (Var "r")));
   Let ["var19"] (E (Ter MULMOD (Var "f_20") (Var "var18") (Var "r")));
   Set_ ["quotient_eval_numer"] (E (Ter ADDMOD (Ter MULMOD (Var "quotient_eval_numer") (Var "y") (Var "r")) (Var "var19") (Var "r")))].

(** Halo2Verifier-3-5-g2.sol:632-662 *)
Definition old_main_06_06 : stmt := Block [Let ["f_20"] (E (Cdload (Num 0x0ba4)));
   Let ["a_0"] (E (Cdload (Num 0x07a4)));
   Let ["f_12"] (E (Cdload (Num 0x0b04)));
   Let ["var0"] (E (Ter ADDMOD (Var "a_0") (Var "f_12") (Var "r")));
   Let ["var1"] (E (Ter MULMOD (Var "var0") (Var "var0") (Var "r")));
   Let ["var2"] (E (Ter MULMOD (Var "var1") (Var "var1") (Var "r")));
   Let ["var3"] (E (Ter MULMOD (Var "var2") (Var "var0") (Var "r")));
   Let ["var4"] (E (Ter MULMOD (Var "var3") (Num 0x143021ec686a3f330d5f9e654638065ce6cd79e28c5b3753326244ee65a1b1a7) (Var "r")));
   Let ["a_1"] (E (Cdload (Num 0x07c4)));
   Let ["f_13"] (E (Cdload (Num 0x0b24)));
   Let ["var5"] (E (Ter ADDMOD (Var "a_1") (Var "f_13") (Var "r")));
   Let ["var6"] (E (Ter MULMOD (Var "var5") (Var "var5") (Var "r")));
   Let ["var7"] (E (Ter MULMOD (Var "var6") (Var "var6") (Var "r")));
   Let ["var8"] (E (Ter MULMOD (Var "var7") (Var "var5") (Var "r")));
   Let ["var9"] (E (Ter MULMOD (Var "var8") (Num 0x176cc029695ad02582a70eff08a6fd99d057e12e58e7d7b6b16cdfabc8ee2911) (Var "r")));
   Let ["var10"] (E (Ter ADDMOD (Var "var4") (Var "var9") (Var "r")));
   Let ["a_2"] (E (Cdload (Num 0x07e4)));
   Let ["f_14"] (E (Cdload (Num 0x0b44)));
   Let ["var11"] (E (Ter ADDMOD (Var "a_2") (Var "f_14") (Var "r")));
   Let ["var12"] (E (Ter MULMOD (Var "var11") (Var "var11") (Var "r")));
   Let ["var13"] (E (Ter MULMOD (Var "var12") (Var "var12") (Var "r")));
   Let ["var14"] (E (Ter MULMOD (Var "var13") (Var "var11") (Var "r")));
   Let ["var15"] (E (Ter MULMOD (Var "var14") (Num 0x19a3fc0a56702bf417ba7fee3802593fa644470307043f7773279cd71d25d5e0) (Var "r")));
   Let ["var16"] (E (Ter ADDMOD (Var "var10") (Var "var15") (Var "r")));
   Let ["a_2_next_1"] (E (Cdload (Num 0x08a4)));
   Let ["var17"] (E (Bin SUB (Var "r") (Var "a_2_next_1")));
   Let ["var18"] (E (Ter ADDMOD (Var "var16") (Var "var17") (Var "r")));
   Let ["var19"] (E (Ter MULMOD (Var "f_20") (Var "var18") (Var "r")));
   Set_ ["quotient_eval_numer"] (E (Ter ADDMOD (Ter MULMOD (Var "quotient_eval_numer") (Var "y") (Var "r")) (Var "var19") (Var "r")))].

(** Halo2Verifier-3-5-g2.sol:663-676 *)
Definition old_main_06_07 : stmt := Block [Let ["f_21"] (E (Cdload (Num 0x0bc4)));
   Let ["a_0"] (E (Cdload (Num 0x07a4)));
   Let ["f_12"] (E (Cdload (Num 0x0b04)));
   Let ["var0"] (E (Ter ADDMOD (Var "a_0") (Var "f_12") (Var "r")));
   Let ["var1"] (E (Ter MULMOD (Var "var0") (Var "var0") (Var "r")));
   Let ["var2"] (E (Ter MULMOD (Var "var1") (Var "var1") (Var "r")));
   Let ["var3"] (E (Ter MULMOD (Var "var2") (Var "var0") (Var "r")));
   Let ["a_3"] (E (Cdload (Num 0x0804)));
   Let ["var4"] (E (Bin SUB (Var "r") (Var "a_3")));
   Let ["var5"] (E (Ter ADDMOD (Var "var3") (Var "var4") (Var "r")));
   Let ["var6"] (E (Ter MULMOD (Var "f_21") (Var "var5") (Var "r")));
   Set_ ["quotient_eval_numer"] (E (Ter ADDMOD (Ter MULMOD (Var "quotient_eval_numer") (Var "y") (Var "r")) (Var "var6") (Var "r")))].

(** Halo2Verifier-3-5-g2.sol:677-708 *)
Definition old_main_06_08 : stmt := Block [Let ["f_21"] (E (Cdload (Num 0x0bc4)));
   Let ["a_3"] (E (Cdload (Num 0x0804)));
   Let ["var0"] (E (Ter MULMOD (Var "a_3") (Num 0x109b7f411ba0e4c9b2b70caf5c36a7b194be7c11ad24378bfedb68592ba8118b) (Var "r")));
   Let ["a_1"] (E (Cdload (Num 0x07c4)));
   Let ["f_13"] (E (Cdload (Num 0x0b24)));
   Let ["var1"] (E (Ter ADDMOD (Var "a_1") (Var "f_13") (Var "r")));
   Let ["var2"] (E (Ter MULMOD (Var "var1") (Num 0x16ed41e13bb9c0c66ae119424fddbcbc9314dc9fdbdeea55d6c64543dc4903e0) (Var "r")));
   Let ["var3"] (E (Ter ADDMOD (Var "var0") (Var "var2") (Var "r")));
   Let ["a_2"] (E (Cdload (Num 0x07e4)));
   Let ["f_14"] (E (Cdload (Num 0x0b44)));
   Let ["var4"] (E (Ter ADDMOD (Var "a_2") (Var "f_14") (Var "r")));
   Let ["var5"] (E (Ter MULMOD (Var "var4") (Num 0x2b90bba00fca0589f617e7dcbfe82e0df706ab640ceb247b791a93b74e36736d) (Var "r")));
   Let ["var6"] (E (Ter ADDMOD (Var "var3") (Var "var5") (Var "r")));
   Let ["f_15"] (E (Cdload (Num 0x0aa4)));
   Let ["var7"] (E (Ter ADDMOD (Var "var6") (Var "f_15") (Var "r")));
   Let ["var8"] (E (Ter MULMOD (Var "var7") (Var "var7") (Var "r")));
   Let ["var9"] (E (Ter MULMOD (Var "var8") (Var "var8") (Var "r")));
   Let ["var10"] (E (Ter MULMOD (Var "var9") (Var "var7") (Var "r")));
   Let ["a_0_next_1"] (E (Cdload (Num 0x0864)));
   Let ["var11"] (E (Ter MULMOD (Var "a_0_next_1") (Num 0x203d1d351372bf15b6465d69d3e12806879a5f36b4ba6dd17dfea07d03f82f26) (Var "r")));
   Let ["a_1_next_1"] (E (Cdload (Num 0x0884)));
   Let ["var12"] (E (Ter MULMOD (Var "a_1_next_1") (Num 0x29b6537218615bcb4b6ad7fe4620063d48e42ce2096b3a1d6e320628bb032c22) (Var "r")));
   Let ["var13"] (E (Ter ADDMOD (Var "var11") (Var "var12") (Var "r")));
   Let ["a_2_next_1"] (E (Cdload (Num 0x08a4)));
   Let ["var14"] (E (Ter MULMOD (Var "a_2_next_1") (Num 0x11551257de3d4b5ab51bd377d7bb55c054f51f711623515b1e2a35a958b93a6a) (Var "r")));
   Let ["var15"] (E (Ter ADDMOD (Var "var13") (Var "var14") (Var "r")));
   Let ["var16"] (E (Bin SUB (Var "r") (Var "var15")));
   Let ["var17"] (E (Ter ADDMOD (Var "var10") (Var "var16") (Var "r")));
   Let ["var18"] (E (Ter MULMOD (Var "f_21") (Var "var17") (Var "r")));
   Set_ ["quotient_eval_numer"] (E (Ter ADDMOD (Ter MULMOD (Var "quotient_eval_numer") (Var "y") (Var "r")) (Var "var18") (Var "r")))].

(** Halo2Verifier-3-5-g2.sol:709-737 *)
Definition old_main_06_09 : stmt := Block [Let ["f_21"] (E (Cdload (Num 0x0bc4)));
   Let ["a_3"] (E (Cdload (Num 0x0804)));
   Let ["var0"] (E (Ter MULMOD (Var "a_3") (Num 0x2969f27eed31a480b9c36c764379dbca2cc8fdd1415c3dded62940bcde0bd771) (Var "r")));
   Let ["a_1"] (E (Cdload (Num 0x07c4)));
   Let ["f_13"] (E (Cdload (Num 0x0b24)));
   Let ["var1"] (E (Ter ADDMOD (Var "a_1") (Var "f_13") (Var "r")));
   Let ["var2"] (E (Ter MULMOD (Var "var1") (Num 0x2e2419f9ec02ec394c9871c832963dc1b89d743c8c7b964029b2311687b1fe23) (Var "r")));
   Let ["var3"] (E (Ter ADDMOD (Var "var0") (Var "var2") (Var "r")));
   Let ["a_2"] (E (Cdload (Num 0x07e4)));
   Let ["f_14"] (E (Cdload (Num 0x0b44)));
   Let ["var4"] (E (Ter ADDMOD (Var "a_2") (Var "f_14") (Var "r")));
   Let ["var5"] (E (Ter MULMOD (Var "var4") (Num 0x101071f0032379b697315876690f053d148d4e109f5fb065c8aacc55a0f89bfa) (Var "r")));
   Let ["var6"] (E (Ter ADDMOD (Var "var3") (Var "var5") (Var "r")));
   Let ["f_16"] (E (Cdload (Num 0x0ac4)));
   Let ["var7"] (E (Ter ADDMOD (Var "var6") (Var "f_16") (Var "r")));
   Let ["a_0_next_1"] (E (Cdload (Num 0x0864)));
   Let ["var8"] (E (Ter MULMOD (Var "a_0_next_1") (Num 0x29dedb1bbf80c8863d569912c20f1f82bf0dc3bc4fb62798dd1319814f833b54) (Var "r")));
   Let ["a_1_next_1"] (E (Cdload (Num 0x0884)));
   Let ["var9"] (E (Ter MULMOD (Var "a_1_next_1") (Num 0x130b59143f4e340cd66c7251dc8f56fbbe0367fec1575cb124ca8a66304e3849) (Var "r")));
   Let ["var10"] (E (Ter ADDMOD (Var "var8") (Var "var9") (Var "r")));
   Let ["a_2_next_1"] (E (Cdload (Num 0x08a4)));
   Let ["var11"] (E (Ter MULMOD (Var "a_2_next_1") (Num 0x0c2808c9533e2c526087842fb62521a3248c8d6d3b16d4b4108476d2eeda95f9) (Var "r")));
   Let ["var12"] (E (Ter ADDMOD (Var "var10") (Var "var11") (Var "r")));
   Let ["var13"] (E (Bin SUB (Var "r") (Var "var12")));
   Let ["var14"] (E (Ter ADDMOD (Var "var7") (Var "var13") (Var "r")));
   Let ["var15"] (E (Ter MULMOD (Var "f_21") (Var "var14") (Var "r")));
   Set_ ["quotient_eval_numer"] (E (Ter ADDMOD (Ter MULMOD (Var "quotient_eval_numer") (Var "y") (Var "r")) (Var "var15") (Var "r")))].

(** Halo2Verifier-3-5-g2.sol:738-766 *)
Definition old_main_06_10 : stmt := Block [Let ["f_21"] (E (Cdload (Num 0x0bc4)));
   Let ["a_3"] (E (Cdload (Num 0x0804)));
   Let ["var0"] (E (Ter MULMOD (Var "a_3") (Num 0x143021ec686a3f330d5f9e654638065ce6cd79e28c5b3753326244ee65a1b1a7) (Var "r")));
   Let ["a_1"] (E (Cdload (Num 0x07c4)));
   Let ["f_13"] (E (Cdload (Num 0x0b24)));
   Let ["var1"] (E (Ter ADDMOD (Var "a_1") (Var "f_13") (Var "r")));
   Let ["var2"] (E (Ter MULMOD (Var "var1") (Num 0x176cc029695ad02582a70eff08a6fd99d057e12e58e7d7b6b16cdfabc8ee2911) (Var "r")));
   Let ["var3"] (E (Ter ADDMOD (Var "var0") (Var "var2") (Var "r")));
   Let ["a_2"] (E (Cdload (Num 0x07e4)));
   Let ["f_14"] (E (Cdload (Num 0x0b44)));
   Let ["var4"] (E (Ter ADDMOD (Var "a_2") (Var "f_14") (Var "r")));
   Let ["var5"] (E (Ter MULMOD (Var "var4") (Num 0x19a3fc0a56702bf417ba7fee3802593fa644470307043f7773279cd71d25d5e0) (Var "r")));
   Let ["var6"] (E (Ter ADDMOD (Var "var3") (Var "var5") (Var "r")));
   Let ["f_17"] (E (Cdload (Num 0x0ae4)));
   Let ["var7"] (E (Ter ADDMOD (Var "var6") (Var "f_17") (Var "r")));
   Let ["a_0_next_1"] (E (Cdload (Num 0x0864)));
   Let ["var8"] (E (Ter MULMOD (Var "a_0_next_1") (Num 0x0173249a1c9eac2591706fe09af22cfd29e1387e706cf0ded2889dc145c61609) (Var "r")));
   Let ["a_1_next_1"] (E (Cdload (Num 0x0884)));
   Let ["var9"] (E (Ter MULMOD (Var "a_1_next_1") (Num 0x0abc7f158780841ec82e03ec3cee0cf1d16270b0238f3063d2e5fb5138e59350) (Var "r")));
   Let ["var10"] (E (Ter ADDMOD (Var "var8") (Var "var9") (Var "r")));
   Let ["a_2_next_1"] (E (Cdload (Num 0x08a4)));
   Let ["var11"] (E (Ter MULMOD (Var "a_2_next_1") (Num 0x1738a318c8631b6e8305505aaf3b497fe9f2478c2f28ee945413af26963b4700) (Var "r")));
   Let ["var12"] (E (Ter ADDMOD (Var "var10") (Var "var11") (Var "r")));
   Let ["var13"] (E (Bin SUB (Var "r") (Var "var12")));
   Let ["var14"] (E (Ter ADDMOD (Var "var7") (Var "var13") (Var "r")));
   Let ["var15"] (E (Ter MULMOD (Var "f_21") (Var "var14") (Var "r")));
   Set_ ["quotient_eval_numer"] (E (Ter ADDMOD (Ter MULMOD (Var "quotient_eval_numer") (Var "y") (Var "r")) (Var "var15") (Var "r")))].

(** Halo2Verifier-3-5-g2.sol:767-777 *)
Definition old_main_06_11 : stmt := Block [Let ["f_22"] (E (Cdload (Num 0x0be4)));
   Let ["a_0_prev_1"] (E (Cdload (Num 0x08e4)));
   Let ["a_0"] (E (Cdload (Num 0x07a4)));
   Let ["var0"] (E (Ter ADDMOD (Var "a_0_prev_1") (Var "a_0") (Var "r")));
   Let ["a_0_next_1"] (E (Cdload (Num 0x0864)));
   Let ["var1"] (E (Bin SUB (Var "r") (Var "a_0_next_1")));
   Let ["var2"] (E (Ter ADDMOD (Var "var0") (Var "var1") (Var "r")));
   Let ["var3"] (E (Ter MULMOD (Var "f_22") (Var "var2") (Var "r")));
   Set_ ["quotient_eval_numer"] (E (Ter ADDMOD (Ter MULMOD (Var "quotient_eval_numer") (Var "y") (Var "r")) (Var "var3") (Var "r")))].

(** Halo2Verifier-3-5-g2.sol:778-788 *)
Definition old_main_06_12 : stmt := Block [Let ["f_22"] (E (Cdload (Num 0x0be4)));
   Let ["a_1_prev_1"] (E (Cdload (Num 0x0904)));
   Let ["a_1"] (E (Cdload (Num 0x07c4)));
   Let ["var0"] (E (Ter ADDMOD (Var "a_1_prev_1") (Var "a_1") (Var "r")));
   Let ["a_1_next_1"] (E (Cdload (Num 0x0884)));
   Let ["var1"] (E (Bin SUB (Var "r") (Var "a_1_next_1")));
   Let ["var2"] (E (Ter ADDMOD (Var "var0") (Var "var1") (Var "r")));
   Let ["var3"] (E (Ter MULMOD (Var "f_22") (Var "var2") (Var "r")));
   Set_ ["quotient_eval_numer"] (E (Ter ADDMOD (Ter MULMOD (Var "quotient_eval_numer") (Var "y") (Var "r")) (Var "var3") (Var "r")))].

(** Halo2Verifier-3-5-g2.sol:789-797 *)
Definition old_main_06_13 : stmt := Block [Let ["f_22"] (E (Cdload (Num 0x0be4)));
   Let ["a_2_prev_1"] (E (Cdload (Num 0x08c4)));
   Let ["a_2_next_1"] (E (Cdload (Num 0x08a4)));
   Let ["var0"] (E (Bin SUB (Var "r") (Var "a_2_next_1")));
   Let ["var1"] (E (Ter ADDMOD (Var "a_2_prev_1") (Var "var0") (Var "r")));
   Let ["var2"] (E (Ter MULMOD (Var "f_22") (Var "var1") (Var "r")));
   Set_ ["quotient_eval_numer"] (E (Ter ADDMOD (Ter MULMOD (Var "quotient_eval_numer") (Var "y") (Var "r")) (Var "var2") (Var "r")))].

(** Halo2Verifier-3-5-g2.sol:798-802 *)
Definition old_main_06_14 : stmt := Block [Let ["l_0"] (E (Mload (Num 0x1360)));
   Let ["eval"] (E (Ter ADDMOD (Var "l_0") (Bin SUB (Var "r") (Ter MULMOD (Var "l_0") (Cdload (Num 0x0d44)) (Var "r"))) (Var "r")));
   Set_ ["quotient_eval_numer"] (E (Ter ADDMOD (Ter MULMOD (Var "quotient_eval_numer") (Var "y") (Var "r")) (Var "eval") (Var "r")))].

(** Halo2Verifier-3-5-g2.sol:803-807 *)
Definition old_main_06_15 : stmt := Block [Let ["perm_z_last"] (E (Cdload (Num 0x0e04)));
   Let ["eval"] (E (Ter MULMOD (Mload (Num 0x1320)) (Ter ADDMOD (Ter MULMOD (Var "perm_z_last") (Var "perm_z_last") (Var "r")) (Bin SUB (Var "r") (Var "perm_z_last")) (Var "r")) (Var "r")));
   Set_ ["quotient_eval_numer"] (E (Ter ADDMOD (Ter MULMOD (Var "quotient_eval_numer") (Var "y") (Var "r")) (Var "eval") (Var "r")))].

(** Halo2Verifier-3-5-g2.sol:808-811 *)
Definition old_main_06_16 : stmt := Block [Let ["eval"] (E (Ter MULMOD (Mload (Num 0x1360)) (Ter ADDMOD (Cdload (Num 0x0da4)) (Bin SUB (Var "r") (Cdload (Num 0x0d84))) (Var "r")) (Var "r")));
   Set_ ["quotient_eval_numer"] (E (Ter ADDMOD (Ter MULMOD (Var "quotient_eval_numer") (Var "y") (Var "r")) (Var "eval") (Var "r")))].

(** Halo2Verifier-3-5-g2.sol:812-815 *)
Definition old_main_06_17 : stmt := Block [Let ["eval"] (E (Ter MULMOD (Mload (Num 0x1360)) (Ter ADDMOD (Cdload (Num 0x0e04)) (Bin SUB (Var "r") (Cdload (Num 0x0de4))) (Var "r")) (Var "r")));
   Set_ ["quotient_eval_numer"] (E (Ter ADDMOD (Ter MULMOD (Var "quotient_eval_numer") (Var "y") (Var "r")) (Var "eval") (Var "r")))].

(** Halo2Verifier-3-5-g2.sol:816-837 *)
Definition old_main_06_18 : stmt := Block [Let ["gamma"] (E (Mload (Num 0x11a0)));
   Let ["beta"] (E (Mload (Num 0x1180)));
   Let ["lhs"] (E (Cdload (Num 0x0d64)));
   Let ["rhs"] (E (Cdload (Num 0x0d44)));
   Set_ ["lhs"] (E (Ter MULMOD (Var "lhs") (Ter ADDMOD (Ter ADDMOD (Cdload (Num 0x07a4)) (Ter MULMOD (Var "beta") (Cdload (Num 0x0c24)) (Var "r")) (Var "r")) (Var "gamma") (Var "r")) (Var "r")));
   Set_ ["lhs"] (E (Ter MULMOD (Var "lhs") (Ter ADDMOD (Ter ADDMOD (Cdload (Num 0x07c4)) (Ter MULMOD (Var "beta") (Cdload (Num 0x0c44)) (Var "r")) (Var "r")) (Var "gamma") (Var "r")) (Var "r")));
   Set_ ["lhs"] (E (Ter MULMOD (Var "lhs") (Ter ADDMOD (Ter ADDMOD (Cdload (Num 0x07e4)) (Ter MULMOD (Var "beta") (Cdload (Num 0x0c64)) (Var "r")) (Var "r")) (Var "gamma") (Var "r")) (Var "r")));
   Set_ ["lhs"] (E (Ter MULMOD (Var "lhs") (Ter ADDMOD (Ter ADDMOD (Cdload (Num 0x0804)) (Ter MULMOD (Var "beta") (Cdload (Num 0x0c84)) (Var "r")) (Var "r")) (Var "gamma") (Var "r")) (Var "r")));
   Mstore (Num 0x00) (Ter MULMOD (Var "beta") (Mload (Num 0x11e0)) (Var "r"));
   Set_ ["rhs"] (E (Ter MULMOD (Var "rhs") (Ter ADDMOD (Ter ADDMOD (Cdload (Num 0x07a4)) (Mload (Num 0x00)) (Var "r")) (Var "gamma") (Var "r")) (Var "r")));
   Mstore (Num 0x00) (Ter MULMOD (Mload (Num 0x00)) (Var "delta") (Var "r"));
   Set_ ["rhs"] (E (Ter MULMOD (Var "rhs") (Ter ADDMOD (Ter ADDMOD (Cdload (Num 0x07c4)) (Mload (Num 0x00)) (Var "r")) (Var "gamma") (Var "r")) (Var "r")));
   Mstore (Num 0x00) (Ter MULMOD (Mload (Num 0x00)) (Var "delta") (Var "r"));
   Set_ ["rhs"] (E (Ter MULMOD (Var "rhs") (Ter ADDMOD (Ter ADDMOD (Cdload (Num 0x07e4)) (Mload (Num 0x00)) (Var "r")) (Var "gamma") (Var "r")) (Var "r")));
   Mstore (Num 0x00) (Ter MULMOD (Mload (Num 0x00)) (Var "delta") (Var "r"));
   Set_ ["rhs"] (E (Ter MULMOD (Var "rhs") (Ter ADDMOD (Ter ADDMOD (Cdload (Num 0x0804)) (Mload (Num 0x00)) (Var "r")) (Var "gamma") (Var "r")) (Var "r")));
   Mstore (Num 0x00) (Ter MULMOD (Mload (Num 0x00)) (Var "delta") (Var "r"));
   Let ["left_sub_right"] (E (Ter ADDMOD (Var "lhs") (Bin SUB (Var "r") (Var "rhs")) (Var "r")));
   Let ["eval"] (E (Ter ADDMOD (Var "left_sub_right") (Bin SUB (Var "r") (Ter MULMOD (Var "left_sub_right") (Ter ADDMOD (Mload (Num 0x1320)) (Mload (Num 0x1340)) (Var "r")) (Var "r"))) (Var "r")));
   Set_ ["quotient_eval_numer"] (E (Ter ADDMOD (Ter MULMOD (Var "quotient_eval_numer") (Var "y") (Var "r")) (Var "eval") (Var "r")))].

(** Halo2Verifier-3-5-g2.sol:838-858 *)
Definition old_main_06_19 : stmt := Block [Let ["gamma"] (E (Mload (Num 0x11a0)));
   Let ["beta"] (E (Mload (Num 0x1180)));
   Let ["lhs"] (E (Cdload (Num 0x0dc4)));
   Let ["rhs"] (E (Cdload (Num 0x0da4)));
   Set_ ["lhs"] (E (Ter MULMOD (Var "lhs") (Ter ADDMOD (Ter ADDMOD (Cdload (Num 0x0824)) (Ter MULMOD (Var "beta") (Cdload (Num 0x0ca4)) (Var "r")) (Var "r")) (Var "gamma") (Var "r")) (Var "r")));
   Set_ ["lhs"] (E (Ter MULMOD (Var "lhs") (Ter ADDMOD (Ter ADDMOD (Mload (Num 0x1380)) (Ter MULMOD (Var "beta") (Cdload (Num 0x0cc4)) (Var "r")) (Var "r")) (Var "gamma") (Var "r")) (Var "r")));
   Set_ ["lhs"] (E (Ter MULMOD (Var "lhs") (Ter ADDMOD (Ter ADDMOD (Cdload (Num 0x0aa4)) (Ter MULMOD (Var "beta") (Cdload (Num 0x0ce4)) (Var "r")) (Var "r")) (Var "gamma") (Var "r")) (Var "r")));
   Set_ ["lhs"] (E (Ter MULMOD (Var "lhs") (Ter ADDMOD (Ter ADDMOD (Cdload (Num 0x0ac4)) (Ter MULMOD (Var "beta") (Cdload (Num 0x0d04)) (Var "r")) (Var "r")) (Var "gamma") (Var "r")) (Var "r")));
   Set_ ["rhs"] (E (Ter MULMOD (Var "rhs") (Ter ADDMOD (Ter ADDMOD (Cdload (Num 0x0824)) (Mload (Num 0x00)) (Var "r")) (Var "gamma") (Var "r")) (Var "r")));
   Mstore (Num 0x00) (Ter MULMOD (Mload (Num 0x00)) (Var "delta") (Var "r"));
   Set_ ["rhs"] (E (Ter MULMOD (Var "rhs") (Ter ADDMOD (Ter ADDMOD (Mload (Num 0x1380)) (Mload (Num 0x00)) (Var "r")) (Var "gamma") (Var "r")) (Var "r")));
   Mstore (Num 0x00) (Ter MULMOD (Mload (Num 0x00)) (Var "delta") (Var "r"));
   Set_ ["rhs"] (E (Ter MULMOD (Var "rhs") (Ter ADDMOD (Ter ADDMOD (Cdload (Num 0x0aa4)) (Mload (Num 0x00)) (Var "r")) (Var "gamma") (Var "r")) (Var "r")));
   Mstore (Num 0x00) (Ter MULMOD (Mload (Num 0x00)) (Var "delta") (Var "r"));
   Set_ ["rhs"] (E (Ter MULMOD (Var "rhs") (Ter ADDMOD (Ter ADDMOD (Cdload (Num 0x0ac4)) (Mload (Num 0x00)) (Var "r")) (Var "gamma") (Var "r")) (Var "r")));
   Mstore (Num 0x00) (Ter MULMOD (Mload (Num 0x00)) (Var "delta") (Var "r"));
   Let ["left_sub_right"] (E (Ter ADDMOD (Var "lhs") (Bin SUB (Var "r") (Var "rhs")) (Var "r")));
   Let ["eval"] (E (Ter ADDMOD (Var "left_sub_right") (Bin SUB (Var "r") (Ter MULMOD (Var "left_sub_right") (Ter ADDMOD (Mload (Num 0x1320)) (Mload (Num 0x1340)) (Var "r")) (Var "r"))) (Var "r")));
   Set_ ["quotient_eval_numer"] (E (Ter ADDMOD (Ter MULMOD (Var "quotient_eval_numer") (Var "y") (Var "r")) (Var "eval") (Var "r")))].

(** Halo2Verifier-3-5-g2.sol:859-869 *)
Definition old_main_06_20 : stmt := Block [Let ["gamma"] (E (Mload (Num 0x11a0)));
   Let ["beta"] (E (Mload (Num 0x1180)));
   Let ["lhs"] (E (Cdload (Num 0x0e24)));
   Let ["rhs"] (E (Cdload (Num 0x0e04)));
   Set_ ["lhs"] (E (Ter MULMOD (Var "lhs") (Ter ADDMOD (Ter ADDMOD (Cdload (Num 0x0ae4)) (Ter MULMOD (Var "beta") (Cdload (Num 0x0d24)) (Var "r")) (Var "r")) (Var "gamma") (Var "r")) (Var "r")));
   Set_ ["rhs"] (E (Ter MULMOD (Var "rhs") (Ter ADDMOD (Ter ADDMOD (Cdload (Num 0x0ae4)) (Mload (Num 0x00)) (Var "r")) (Var "gamma") (Var "r")) (Var "r")));
   Let ["left_sub_right"] (E (Ter ADDMOD (Var "lhs") (Bin SUB (Var "r") (Var "rhs")) (Var "r")));
   Let ["eval"] (E (Ter ADDMOD (Var "left_sub_right") (Bin SUB (Var "r") (Ter MULMOD (Var "left_sub_right") (Ter ADDMOD (Mload (Num 0x1320)) (Mload (Num 0x1340)) (Var "r")) (Var "r"))) (Var "r")));
   Set_ ["quotient_eval_numer"] (E (Ter ADDMOD (Ter MULMOD (Var "quotient_eval_numer") (Var "y") (Var "r")) (Var "eval") (Var "r")))].

(** Halo2Verifier-3-5-g2.sol:870-874 *)
Definition old_main_06_21 : stmt := Block [Let ["l_0"] (E (Mload (Num 0x1360)));
   Let ["eval"] (E (Ter ADDMOD (Var "l_0") (Ter MULMOD (Var "l_0") (Bin SUB (Var "r") (Cdload (Num 0x0e44))) (Var "r")) (Var "r")));
   Set_ ["quotient_eval_numer"] (E (Ter ADDMOD (Ter MULMOD (Var "quotient_eval_numer") (Var "y") (Var "r")) (Var "eval") (Var "r")))].

(** Halo2Verifier-3-5-g2.sol:875-879 *)
Definition old_main_06_22 : stmt := Block [Let ["l_last"] (E (Mload (Num 0x1320)));
   Let ["eval"] (E (Ter MULMOD (Var "l_last") (Ter ADDMOD (Ter MULMOD (Cdload (Num 0x0e44)) (Cdload (Num 0x0e44)) (Var "r")) (Bin SUB (Var "r") (Cdload (Num 0x0e44))) (Var "r")) (Var "r")));
   Set_ ["quotient_eval_numer"] (E (Ter ADDMOD (Ter MULMOD (Var "quotient_eval_numer") (Var "y") (Var "r")) (Var "eval") (Var "r")))].

(** Halo2Verifier-3-5-g2.sol:883-891 *)
Definition old_main_06_23_02 : stmt := Block [Let ["f_18"] (E (Cdload (Num 0x0b64)));
   Let ["var0"] (E (Num 0x5));
   Let ["var1"] (E (Ter MULMOD (Var "f_18") (Var "var0") (Var "r")));
   Let ["a_0"] (E (Cdload (Num 0x07a4)));
   Let ["var2"] (E (Ter MULMOD (Var "f_18") (Var "a_0") (Var "r")));
   Set_ ["input"] (E (Var "var1"));
   Set_ ["input"] (E (Ter ADDMOD (Ter MULMOD (Var "input") (Var "theta") (Var "r")) (Var "var2") (Var "r")))].

(** Halo2Verifier-3-5-g2.sol:893-898 *)
Definition old_main_06_23_04 : stmt := Block [Let ["f_9"] (E (Cdload (Num 0x0a44)));
   Let ["f_10"] (E (Cdload (Num 0x0a64)));
   Set_ ["table"] (E (Var "f_9"));
   Set_ ["table"] (E (Ter ADDMOD (Ter MULMOD (Var "table") (Var "theta") (Var "r")) (Var "f_10") (Var "r")))].

(** Halo2Verifier-3-5-g2.sol:880-905 *)
Definition old_main_06_23 : stmt := Block [Let ["theta"] (E (Mload (Num 0x1160))); Let ["input"] (E (Num 0)); old_main_06_23_02; Let ["table"] (E (Num 0)); old_main_06_23_04; Let ["beta"] (E (Mload (Num 0x1180))); Let ["gamma"] (E (Mload (Num 0x11a0))); Let ["lhs"] (E (Ter MULMOD (Cdload (Num 0x0e64)) (Ter MULMOD (Ter ADDMOD (Cdload (Num 0x0e84)) (Var "beta") (Var "r")) (Ter ADDMOD (Cdload (Num 0x0ec4)) (Var "gamma") (Var "r")) (Var "r")) (Var "r"))); Let ["rhs"] (E (Ter MULMOD (Cdload (Num 0x0e44)) (Ter MULMOD (Ter ADDMOD (Var "input") (Var "beta") (Var "r")) (Ter ADDMOD (Var "table") (Var "gamma") (Var "r")) (Var "r")) (Var "r"))); Let ["eval"] (E (Ter MULMOD (Ter ADDMOD (Num 1) (Bin SUB (Var "r") (Ter ADDMOD (Mload (Num 0x1340)) (Mload (Num 0x1320)) (Var "r"))) (Var "r")) (Ter ADDMOD (Var "lhs") (Bin SUB (Var "r") (Var "rhs")) (Var "r")) (Var "r"))); Set_ ["quotient_eval_numer"] (E (Ter ADDMOD (Ter MULMOD (Var "quotient_eval_numer") (Var "y") (Var "r")) (Var "eval") (Var "r")))].

(** Halo2Verifier-3-5-g2.sol:906-909 *)
Definition old_main_06_24 : stmt := Block [Let ["eval"] (E (Ter MULMOD (Mload (Num 0x1360)) (Ter ADDMOD (Cdload (Num 0x0e84)) (Bin SUB (Var "r") (Cdload (Num 0x0ec4))) (Var "r")) (Var "r")));
   Set_ ["quotient_eval_numer"] (E (Ter ADDMOD (Ter MULMOD (Var "quotient_eval_numer") (Var "y") (Var "r")) (Var "eval") (Var "r")))].

(** Halo2Verifier-3-5-g2.sol:910-913 *)
Definition old_main_06_25 : stmt := Block [Let ["eval"] (E (Ter MULMOD (Ter ADDMOD (Num 1) (Bin SUB (Var "r") (Ter ADDMOD (Mload (Num 0x1340)) (Mload (Num 0x1320)) (Var "r"))) (Var "r")) (Ter MULMOD (Ter ADDMOD (Cdload (Num 0x0e84)) (Bin SUB (Var "r") (Cdload (Num 0x0ec4))) (Var "r")) (Ter ADDMOD (Cdload (Num 0x0e84)) (Bin SUB (Var "r") (Cdload (Num 0x0ea4))) (Var "r")) (Var "r")) (Var "r")));
   Set_ ["quotient_eval_numer"] (E (Ter ADDMOD (Ter MULMOD (Var "quotient_eval_numer") (Var "y") (Var "r")) (Var "eval") (Var "r")))].

(** Halo2Verifier-3-5-g2.sol:914-918 *)
Definition old_main_06_26 : stmt := Block [Let ["l_0"] (E (Mload (Num 0x1360)));
   Let ["eval"] (E (Ter ADDMOD (Var "l_0") (Ter MULMOD (Var "l_0") (Bin SUB (Var "r") (Cdload (Num 0x0ee4))) (Var "r")) (Var "r")));
   Set_ ["quotient_eval_numer"] (E (Ter ADDMOD (Ter MULMOD (Var "quotient_eval_numer") (Var "y") (Var "r")) (Var "eval") (Var "r")))].

(** Halo2Verifier-3-5-g2.sol:919-923 *)
Definition old_main_06_27 : stmt := Block [Let ["l_last"] (E (Mload (Num 0x1320)));
   Let ["eval"] (E (Ter MULMOD (Var "l_last") (Ter ADDMOD (Ter MULMOD (Cdload (Num 0x0ee4)) (Cdload (Num 0x0ee4)) (Var "r")) (Bin SUB (Var "r") (Cdload (Num 0x0ee4))) (Var "r")) (Var "r")));
   Set_ ["quotient_eval_numer"] (E (Ter ADDMOD (Ter MULMOD (Var "quotient_eval_numer") (Var "y") (Var "r")) (Var "eval") (Var "r")))].

(** Halo2Verifier-3-5-g2.sol:927-935 *)
Definition old_main_06_28_02 : stmt := Block [Let ["f_18"] (E (Cdload (Num 0x0b64)));
   Let ["var0"] (E (Num 0x5));
   Let ["var1"] (E (Ter MULMOD (Var "f_18") (Var "var0") (Var "r")));
   Let ["a_1"] (E (Cdload (Num 0x07c4)));
   Let ["var2"] (E (Ter MULMOD (Var "f_18") (Var "a_1") (Var "r")));
   Set_ ["input"] (E (Var "var1"));
   Set_ ["input"] (E (Ter ADDMOD (Ter MULMOD (Var "input") (Var "theta") (Var "r")) (Var "var2") (Var "r")))].

(** Halo2Verifier-3-5-g2.sol:937-942 *)
Definition old_main_06_28_04 : stmt := Block [Let ["f_9"] (E (Cdload (Num 0x0a44)));
   Let ["f_10"] (E (Cdload (Num 0x0a64)));
   Set_ ["table"] (E (Var "f_9"));
   Set_ ["table"] (E (Ter ADDMOD (Ter MULMOD (Var "table") (Var "theta") (Var "r")) (Var "f_10") (Var "r")))].

(** Halo2Verifier-3-5-g2.sol:924-949 *)
Definition old_main_06_28 : stmt := Block [Let ["theta"] (E (Mload (Num 0x1160))); Let ["input"] (E (Num 0)); old_main_06_28_02; Let ["table"] (E (Num 0)); old_main_06_28_04; Let ["beta"] (E (Mload (Num 0x1180))); Let ["gamma"] (E (Mload (Num 0x11a0))); Let ["lhs"] (E (Ter MULMOD (Cdload (Num 0x0f04)) (Ter MULMOD (Ter ADDMOD (Cdload (Num 0x0f24)) (Var "beta") (Var "r")) (Ter ADDMOD (Cdload (Num 0x0f64)) (Var "gamma") (Var "r")) (Var "r")) (Var "r"))); Let ["rhs"] (E (Ter MULMOD (Cdload (Num 0x0ee4)) (Ter MULMOD (Ter ADDMOD (Var "input") (Var "beta") (Var "r")) (Ter ADDMOD (Var "table") (Var "gamma") (Var "r")) (Var "r")) (Var "r"))); Let ["eval"] (E (Ter MULMOD (Ter ADDMOD (Num 1) (Bin SUB (Var "r") (Ter ADDMOD (Mload (Num 0x1340)) (Mload (Num 0x1320)) (Var "r"))) (Var "r")) (Ter ADDMOD (Var "lhs") (Bin SUB (Var "r") (Var "rhs")) (Var "r")) (Var "r"))); Set_ ["quotient_eval_numer"] (E (Ter ADDMOD (Ter MULMOD (Var "quotient_eval_numer") (Var "y") (Var "r")) (Var "eval") (Var "r")))].

(** Halo2Verifier-3-5-g2.sol:950-953 *)
Definition old_main_06_29 : stmt := Block [Let ["eval"] (E (Ter MULMOD (Mload (Num 0x1360)) (Ter ADDMOD (Cdload (Num 0x0f24)) (Bin SUB (Var "r") (Cdload (Num 0x0f64))) (Var "r")) (Var "r")));
   Set_ ["quotient_eval_numer"] (E (Ter ADDMOD (Ter MULMOD (Var "quotient_eval_numer") (Var "y") (Var "r")) (Var "eval") (Var "r")))].

(** Halo2Verifier-3-5-g2.sol:954-957 *)
Definition old_main_06_30 : stmt := Block [Let ["eval"] (E (Ter MULMOD (Ter ADDMOD (Num 1) (Bin SUB (Var "r") (Ter ADDMOD (Mload (Num 0x1340)) (Mload (Num 0x1320)) (Var "r"))) (Var "r")) (Ter MULMOD (Ter ADDMOD (Cdload (Num 0x0f24)) (Bin SUB (Var "r") (Cdload (Num 0x0f64))) (Var "r")) (Ter ADDMOD (Cdload (Num 0x0f24)) (Bin SUB (Var "r") (Cdload (Num 0x0f44))) (Var "r")) (Var "r")) (Var "r")));
   Set_ ["quotient_eval_numer"] (E (Ter ADDMOD (Ter MULMOD (Var "quotient_eval_numer") (Var "y") (Var "r")) (Var "eval") (Var "r")))].

(** Halo2Verifier-3-5-g2.sol:958-962 *)
Definition old_main_06_31 : stmt := Block [Let ["l_0"] (E (Mload (Num 0x1360)));
   Let ["eval"] (E (Ter ADDMOD (Var "l_0") (Ter MULMOD (Var "l_0") (Bin SUB (Var "r") (Cdload (Num 0x0f84))) (Var "r")) (Var "r")));
   Set_ ["quotient_eval_numer"] (E (Ter ADDMOD (Ter MULMOD (Var "quotient_eval_numer") (Var "y") (Var "r")) (Var "eval") (Var "r")))].

(** Halo2Verifier-3-5-g2.sol:963-967 *)
Definition old_main_06_32 : stmt := Block [Let ["l_last"] (E (Mload (Num 0x1320)));
   Let ["eval"] (E (Ter MULMOD (Var "l_last") (Ter ADDMOD (Ter MULMOD (Cdload (Num 0x0f84)) (Cdload (Num 0x0f84)) (Var "r")) (Bin SUB (Var "r") (Cdload (Num 0x0f84))) (Var "r")) (Var "r")));
   Set_ ["quotient_eval_numer"] (E (Ter ADDMOD (Ter MULMOD (Var "quotient_eval_numer") (Var "y") (Var "r")) (Var "eval") (Var "r")))].

(** Halo2Verifier-3-5-g2.sol:971-979 *)
Definition old_main_06_33_02 : stmt := Block [Let ["f_18"] (E (Cdload (Num 0x0b64)));
   Let ["var0"] (E (Num 0x5));
   Let ["var1"] (E (Ter MULMOD (Var "f_18") (Var "var0") (Var "r")));
   Let ["a_2"] (E (Cdload (Num 0x07e4)));
   Let ["var2"] (E (Ter MULMOD (Var "f_18") (Var "a_2") (Var "r")));
   Set_ ["input"] (E (Var "var1"));
   Set_ ["input"] (E (Ter ADDMOD (Ter MULMOD (Var "input") (Var "theta") (Var "r")) (Var "var2") (Var "r")))].

(** Halo2Verifier-3-5-g2.sol:981-986 *)
Definition old_main_06_33_04 : stmt := Block [Let ["f_9"] (E (Cdload (Num 0x0a44)));
   Let ["f_10"] (E (Cdload (Num 0x0a64)));
   Set_ ["table"] (E (Var "f_9"));
   Set_ ["table"] (E (Ter ADDMOD (Ter MULMOD (Var "table") (Var "theta") (Var "r")) (Var "f_10") (Var "r")))].

(** Halo2Verifier-3-5-g2.sol:968-993 *)
Definition old_main_06_33 : stmt := Block [Let ["theta"] (E (Mload (Num 0x1160))); Let ["input"] (E (Num 0)); old_main_06_33_02; Let ["table"] (E (Num 0)); old_main_06_33_04; Let ["beta"] (E (Mload (Num 0x1180))); Let ["gamma"] (E (Mload (Num 0x11a0))); Let ["lhs"] (E (Ter MULMOD (Cdload (Num 0x0fa4)) (Ter MULMOD (Ter ADDMOD (Cdload (Num 0x0fc4)) (Var "beta") (Var "r")) (Ter ADDMOD (Cdload (Num 0x1004)) (Var "gamma") (Var "r")) (Var "r")) (Var "r"))); Let ["rhs"] (E (Ter MULMOD (Cdload (Num 0x0f84)) (Ter MULMOD (Ter ADDMOD (Var "input") (Var "beta") (Var "r")) (Ter ADDMOD (Var "table") (Var "gamma") (Var "r")) (Var "r")) (Var "r"))); Let ["eval"] (E (Ter MULMOD (Ter ADDMOD (Num 1) (Bin SUB (Var "r") (Ter ADDMOD (Mload (Num 0x1340)) (Mload (Num 0x1320)) (Var "r"))) (Var "r")) (Ter ADDMOD (Var "lhs") (Bin SUB (Var "r") (Var "rhs")) (Var "r")) (Var "r"))); Set_ ["quotient_eval_numer"] (E (Ter ADDMOD (Ter MULMOD (Var "quotient_eval_numer") (Var "y") (Var "r")) (Var "eval") (Var "r")))].

(** Halo2Verifier-3-5-g2.sol:994-997 *)
Definition old_main_06_34 : stmt := Block [Let ["eval"] (E (Ter MULMOD (Mload (Num 0x1360)) (Ter ADDMOD (Cdload (Num 0x0fc4)) (Bin SUB (Var "r") (Cdload (Num 0x1004))) (Var "r")) (Var "r")));
   Set_ ["quotient_eval_numer"] (E (Ter ADDMOD (Ter MULMOD (Var "quotient_eval_numer") (Var "y") (Var "r")) (Var "eval") (Var "r")))].

(** Halo2Verifier-3-5-g2.sol:998-1001 *)
Definition old_main_06_35 : stmt := Block [Let ["eval"] (E (Ter MULMOD (Ter ADDMOD (Num 1) (Bin SUB (Var "r") (Ter ADDMOD (Mload (Num 0x1340)) (Mload (Num 0x1320)) (Var "r"))) (Var "r")) (Ter MULMOD (Ter ADDMOD (Cdload (Num 0x0fc4)) (Bin SUB (Var "r") (Cdload (Num 0x1004))) (Var "r")) (Ter ADDMOD (Cdload (Num 0x0fc4)) (Bin SUB (Var "r") (Cdload (Num 0x0fe4))) (Var "r")) (Var "r")) (Var "r")));
   Set_ ["quotient_eval_numer"] (E (Ter ADDMOD (Ter MULMOD (Var "quotient_eval_numer") (Var "y") (Var "r")) (Var "eval") (Var "r")))].

(** Halo2Verifier-3-5-g2.sol:1002-1006 *)
Definition old_main_06_36 : stmt := Block [Let ["l_0"] (E (Mload (Num 0x1360)));
   Let ["eval"] (E (Ter ADDMOD (Var "l_0") (Ter MULMOD (Var "l_0") (Bin SUB (Var "r") (Cdload (Num 0x1024))) (Var "r")) (Var "r")));
   Set_ ["quotient_eval_numer"] (E (Ter ADDMOD (Ter MULMOD (Var "quotient_eval_numer") (Var "y") (Var "r")) (Var "eval") (Var "r")))].

(** Halo2Verifier-3-5-g2.sol:1007-1011 *)
Definition old_main_06_37 : stmt := Block [Let ["l_last"] (E (Mload (Num 0x1320)));
   Let ["eval"] (E (Ter MULMOD (Var "l_last") (Ter ADDMOD (Ter MULMOD (Cdload (Num 0x1024)) (Cdload (Num 0x1024)) (Var "r")) (Bin SUB (Var "r") (Cdload (Num 0x1024))) (Var "r")) (Var "r")));
   Set_ ["quotient_eval_numer"] (E (Ter ADDMOD (Ter MULMOD (Var "quotient_eval_numer") (Var "y") (Var "r")) (Var "eval") (Var "r")))].

(** Halo2Verifier-3-5-g2.sol:1015-1023 *)
Definition old_main_06_38_02 : stmt := Block [Let ["f_18"] (E (Cdload (Num 0x0b64)));
   Let ["var0"] (E (Num 0x5));
   Let ["var1"] (E (Ter MULMOD (Var "f_18") (Var "var0") (Var "r")));
   Let ["a_3"] (E (Cdload (Num 0x0804)));
   Let ["var2"] (E (Ter MULMOD (Var "f_18") (Var "a_3") (Var "r")));
   Set_ ["input"] (E (Var "var1"));
   Set_ ["input"] (E (Ter ADDMOD (Ter MULMOD (Var "input") (Var "theta") (Var "r")) (Var "var2") (Var "r")))].

(** Halo2Verifier-3-5-g2.sol:1025-1030 *)
Definition old_main_06_38_04 : stmt := Block [Let ["f_9"] (E (Cdload (Num 0x0a44)));
   Let ["f_10"] (E (Cdload (Num 0x0a64)));
   Set_ ["table"] (E (Var "f_9"));
   Set_ ["table"] (E (Ter ADDMOD (Ter MULMOD (Var "table") (Var "theta") (Var "r")) (Var "f_10") (Var "r")))].

(** Halo2Verifier-3-5-g2.sol:1012-1037 *)
Definition old_main_06_38 : stmt := Block [Let ["theta"] (E (Mload (Num 0x1160))); Let ["input"] (E (Num 0)); old_main_06_38_02; Let ["table"] (E (Num 0)); old_main_06_38_04; Let ["beta"] (E (Mload (Num 0x1180))); Let ["gamma"] (E (Mload (Num 0x11a0))); Let ["lhs"] (E (Ter MULMOD (Cdload (Num 0x1044)) (Ter MULMOD (Ter ADDMOD (Cdload (Num 0x1064)) (Var "beta") (Var "r")) (Ter ADDMOD (Cdload (Num 0x10a4)) (Var "gamma") (Var "r")) (Var "r")) (Var "r"))); Let ["rhs"] (E (Ter MULMOD (Cdload (Num 0x1024)) (Ter MULMOD (Ter ADDMOD (Var "input") (Var "beta") (Var "r")) (Ter ADDMOD (Var "table") (Var "gamma") (Var "r")) (Var "r")) (Var "r"))); Let ["eval"] (E (Ter MULMOD (Ter ADDMOD (Num 1) (Bin SUB (Var "r") (Ter ADDMOD (Mload (Num 0x1340)) (Mload (Num 0x1320)) (Var "r"))) (Var "r")) (Ter ADDMOD (Var "lhs") (Bin SUB (Var "r") (Var "rhs")) (Var "r")) (Var "r"))); Set_ ["quotient_eval_numer"] (E (Ter ADDMOD (Ter MULMOD (Var "quotient_eval_numer") (Var "y") (Var "r")) (Var "eval") (Var "r")))].

(** Halo2Verifier-3-5-g2.sol:1038-1041 *)
Definition old_main_06_39 : stmt := Block [Let ["eval"] (E (Ter MULMOD (Mload (Num 0x1360)) (Ter ADDMOD (Cdload (Num 0x1064)) (Bin SUB (Var "r") (Cdload (Num 0x10a4))) (Var "r")) (Var "r")));
   Set_ ["quotient_eval_numer"] (E (Ter ADDMOD (Ter MULMOD (Var "quotient_eval_numer") (Var "y") (Var "r")) (Var "eval") (Var "r")))].

(** Halo2Verifier-3-5-g2.sol:1042-1045 *)
Definition old_main_06_40 : stmt := Block [Let ["eval"] (E (Ter MULMOD (Ter ADDMOD (Num 1) (Bin SUB (Var "r") (Ter ADDMOD (Mload (Num 0x1340)) (Mload (Num 0x1320)) (Var "r"))) (Var "r")) (Ter MULMOD (Ter ADDMOD (Cdload (Num 0x1064)) (Bin SUB (Var "r") (Cdload (Num 0x10a4))) (Var "r")) (Ter ADDMOD (Cdload (Num 0x1064)) (Bin SUB (Var "r") (Cdload (Num 0x1084))) (Var "r")) (Var "r")) (Var "r")));
   Set_ ["quotient_eval_numer"] (E (Ter ADDMOD (Ter MULMOD (Var "quotient_eval_numer") (Var "y") (Var "r")) (Var "eval") (Var "r")))].

(** Halo2Verifier-3-5-g2.sol:1046-1050 *)
Definition old_main_06_41 : stmt := Block [Let ["l_0"] (E (Mload (Num 0x1360)));
   Let ["eval"] (E (Ter ADDMOD (Var "l_0") (Ter MULMOD (Var "l_0") (Bin SUB (Var "r") (Cdload (Num 0x10c4))) (Var "r")) (Var "r")));
   Set_ ["quotient_eval_numer"] (E (Ter ADDMOD (Ter MULMOD (Var "quotient_eval_numer") (Var "y") (Var "r")) (Var "eval") (Var "r")))].

(** Halo2Verifier-3-5-g2.sol:1051-1055 *)
Definition old_main_06_42 : stmt := Block [Let ["l_last"] (E (Mload (Num 0x1320)));
   Let ["eval"] (E (Ter MULMOD (Var "l_last") (Ter ADDMOD (Ter MULMOD (Cdload (Num 0x10c4)) (Cdload (Num 0x10c4)) (Var "r")) (Bin SUB (Var "r") (Cdload (Num 0x10c4))) (Var "r")) (Var "r")));
   Set_ ["quotient_eval_numer"] (E (Ter ADDMOD (Ter MULMOD (Var "quotient_eval_numer") (Var "y") (Var "r")) (Var "eval") (Var "r")))].

(** Halo2Verifier-3-5-g2.sol:1059-1066 *)
Definition old_main_06_43_02 : stmt := Block [Let ["f_11"] (E (Cdload (Num 0x0a84)));
   Let ["f_19"] (E (Cdload (Num 0x0b84)));
   Let ["a_0"] (E (Cdload (Num 0x07a4)));
   Let ["var0"] (E (Ter MULMOD (Var "f_19") (Var "a_0") (Var "r")));
   Set_ ["input"] (E (Var "f_11"));
   Set_ ["input"] (E (Ter ADDMOD (Ter MULMOD (Var "input") (Var "theta") (Var "r")) (Var "var0") (Var "r")))].

(** Halo2Verifier-3-5-g2.sol:1068-1073 *)
Definition old_main_06_43_04 : stmt := Block [Let ["f_9"] (E (Cdload (Num 0x0a44)));
   Let ["f_10"] (E (Cdload (Num 0x0a64)));
   Set_ ["table"] (E (Var "f_9"));
   Set_ ["table"] (E (Ter ADDMOD (Ter MULMOD (Var "table") (Var "theta") (Var "r")) (Var "f_10") (Var "r")))].

(** Halo2Verifier-3-5-g2.sol:1056-1080 *)
Definition old_main_06_43 : stmt := Block [Let ["theta"] (E (Mload (Num 0x1160))); Let ["input"] (E (Num 0)); old_main_06_43_02; Let ["table"] (E (Num 0)); old_main_06_43_04; Let ["beta"] (E (Mload (Num 0x1180))); Let ["gamma"] (E (Mload (Num 0x11a0))); Let ["lhs"] (E (Ter MULMOD (Cdload (Num 0x10e4)) (Ter MULMOD (Ter ADDMOD (Cdload (Num 0x1104)) (Var "beta") (Var "r")) (Ter ADDMOD (Cdload (Num 0x1144)) (Var "gamma") (Var "r")) (Var "r")) (Var "r"))); Let ["rhs"] (E (Ter MULMOD (Cdload (Num 0x10c4)) (Ter MULMOD (Ter ADDMOD (Var "input") (Var "beta") (Var "r")) (Ter ADDMOD (Var "table") (Var "gamma") (Var "r")) (Var "r")) (Var "r"))); Let ["eval"] (E (Ter MULMOD (Ter ADDMOD (Num 1) (Bin SUB (Var "r") (Ter ADDMOD (Mload (Num 0x1340)) (Mload (Num 0x1320)) (Var "r"))) (Var "r")) (Ter ADDMOD (Var "lhs") (Bin SUB (Var "r") (Var "rhs")) (Var "r")) (Var "r"))); Set_ ["quotient_eval_numer"] (E (Ter ADDMOD (Ter MULMOD (Var "quotient_eval_numer") (Var "y") (Var "r")) (Var "eval") (Var "r")))].

(** Halo2Verifier-3-5-g2.sol:1081-1084 *)
Definition old_main_06_44 : stmt := Block [Let ["eval"] (E (Ter MULMOD (Mload (Num 0x1360)) (Ter ADDMOD (Cdload (Num 0x1104)) (Bin SUB (Var "r") (Cdload (Num 0x1144))) (Var "r")) (Var "r")));
   Set_ ["quotient_eval_numer"] (E (Ter ADDMOD (Ter MULMOD (Var "quotient_eval_numer") (Var "y") (Var "r")) (Var "eval") (Var "r")))].

(** Halo2Verifier-3-5-g2.sol:1085-1088 *)
Definition old_main_06_45 : stmt := Block [Let ["eval"] (E (Ter MULMOD (Ter ADDMOD (Num 1) (Bin SUB (Var "r") (Ter ADDMOD (Mload (Num 0x1340)) (Mload (Num 0x1320)) (Var "r"))) (Var "r")) (Ter MULMOD (Ter ADDMOD (Cdload (Num 0x1104)) (Bin SUB (Var "r") (Cdload (Num 0x1144))) (Var "r")) (Ter ADDMOD (Cdload (Num 0x1104)) (Bin SUB (Var "r") (Cdload (Num 0x1124))) (Var "r")) (Var "r")) (Var "r")));
   Set_ ["quotient_eval_numer"] (E (Ter ADDMOD (Ter MULMOD (Var "quotient_eval_numer") (Var "y") (Var "r")) (Var "eval") (Var "r")))].

(** Halo2Verifier-3-5-g2.sol:530-1095 *)
Definition old_main_06 : stmt := Block [Let ["quotient_eval_numer"] (E (Num 0)); Let ["delta"] (E (Num 4131629893567559867359510883348571134090853742863529169391034518566172092834)); Let ["y"] (E (Mload (Num 0x11c0))); old_main_06_03; old_main_06_04; old_main_06_05; old_main_06_06; old_main_06_07; old_main_06_08; old_main_06_09; old_main_06_10; old_main_06_11; old_main_06_12; old_main_06_13; old_main_06_14; old_main_06_15; old_main_06_16; old_main_06_17; old_main_06_18; old_main_06_19; old_main_06_20; old_main_06_21; old_main_06_22; old_main_06_23; old_main_06_24; old_main_06_25; old_main_06_26; old_main_06_27; old_main_06_28; old_main_06_29; old_main_06_30; old_main_06_31; old_main_06_32; old_main_06_33; old_main_06_34; old_main_06_35; old_main_06_36; old_main_06_37; old_main_06_38; old_main_06_39; old_main_06_40; old_main_06_41; old_main_06_42; old_main_06_43; old_main_06_44; old_main_06_45; Pop (Var "y"); Pop (Var "delta"); Let ["quotient_eval"] (E (Ter MULMOD (Var "quotient_eval_numer") (Mload (Num 0x1300)) (Var "r"))); Mstore (Num 0x13a0) (Var "quotient_eval")].

(** Halo2Verifier-3-5-g2.sol:1098-1116 *)
Definition old_main_07 : stmt := Block [Mstore (Num 0x00) (Cdload (Num 0x0764));
   Mstore (Num 0x20) (Cdload (Bin ADD (Num 0x0764) (Num 0x20)));
   Let ["x_n"] (E (Mload (Num 0x12e0)));
   For [Let ["cptr"] (E (Bin SUB (Num 0x0764) (Num 0x40)));
   Let ["cptr_end"] (E (Bin SUB (Num 0x0664) (Num 0x40)))] (Bin LT (Var "cptr_end") (Var "cptr")) []
   [Set_ ["success"] (Call "ec_mul_acc" [(Var "success"); (Var "x_n")]);
   Set_ ["success"] (Call "ec_add_acc" [(Var "success"); (Cdload (Var "cptr")); (Cdload (Bin ADD (Var "cptr") (Num 0x20)))]);
   Set_ ["cptr"] (E (Bin SUB (Var "cptr") (Num 0x40)))];
   Mstore (Num 0x13c0) (Mload (Num 0x00));
   Mstore (Num 0x13e0) (Mload (Num 0x20))].

(** Halo2Verifier-3-5-g2.sol:1120-1135 *)
Definition old_main_08_00 : stmt := Block [Let ["x"] (E (Mload (Num 0x11e0)));
   Let ["omega"] (E (Mload (Num 0x0740)));
   Let ["omega_inv"] (E (Mload (Num 0x0760)));
   Let ["x_pow_of_omega"] (E (Ter MULMOD (Var "x") (Var "omega") (Var "r")));
   Mstore (Num 0x0420) (Var "x_pow_of_omega");
   Mstore (Num 0x0400) (Var "x");
   Set_ ["x_pow_of_omega"] (E (Ter MULMOD (Var "x") (Var "omega_inv") (Var "r")));
   Mstore (Num 0x03e0) (Var "x_pow_of_omega");
   Set_ ["x_pow_of_omega"] (E (Ter MULMOD (Var "x_pow_of_omega") (Var "omega_inv") (Var "r")));
   Set_ ["x_pow_of_omega"] (E (Ter MULMOD (Var "x_pow_of_omega") (Var "omega_inv") (Var "r")));
   Set_ ["x_pow_of_omega"] (E (Ter MULMOD (Var "x_pow_of_omega") (Var "omega_inv") (Var "r")));
   Set_ ["x_pow_of_omega"] (E (Ter MULMOD (Var "x_pow_of_omega") (Var "omega_inv") (Var "r")));
   Set_ ["x_pow_of_omega"] (E (Ter MULMOD (Var "x_pow_of_omega") (Var "omega_inv") (Var "r")));
   Mstore (Num 0x03c0) (Var "x_pow_of_omega")].

(** Halo2Verifier-3-5-g2.sol:1136-1173 *)
Definition old_main_08_01 : stmt := Block [Let ["mu"] (E (Mload (Num 0x1240)));
   For [Let ["mptr"] (E (Num 0x0440));
   Let ["mptr_end"] (E (Num 0x04c0));
   Let ["point_mptr"] (E (Num 0x03c0))] (Bin LT (Var "mptr") (Var "mptr_end")) [Set_ ["mptr"] (E (Bin ADD (Var "mptr") (Num 0x20)));
   Set_ ["point_mptr"] (E (Bin ADD (Var "point_mptr") (Num 0x20)))]
   [Mstore (Var "mptr") (Ter ADDMOD (Var "mu") (Bin SUB (Var "r") (Mload (Var "point_mptr"))) (Var "r"))];
   Let ["s"] (E (Num 0));
   Set_ ["s"] (E (Mload (Num 0x0460)));
   Set_ ["s"] (E (Ter MULMOD (Var "s") (Mload (Num 0x0480)) (Var "r")));
   Set_ ["s"] (E (Ter MULMOD (Var "s") (Mload (Num 0x04a0)) (Var "r")));
   Mstore (Num 0x04c0) (Var "s");
   Let ["diff"] (E (Num 0));
   Set_ ["diff"] (E (Mload (Num 0x0440)));
   Mstore (Num 0x04e0) (Var "diff");
   Mstore (Num 0x00) (Var "diff");
   Set_ ["diff"] (E (Mload (Num 0x0440)));
   Set_ ["diff"] (E (Ter MULMOD (Var "diff") (Mload (Num 0x0460)) (Var "r")));
   Set_ ["diff"] (E (Ter MULMOD (Var "diff") (Mload (Num 0x04a0)) (Var "r")));
   Mstore (Num 0x0500) (Var "diff");
   Set_ ["diff"] (E (Mload (Num 0x0440)));
   Set_ ["diff"] (E (Ter MULMOD (Var "diff") (Mload (Num 0x0460)) (Var "r")));
   Mstore (Num 0x0520) (Var "diff");
   Set_ ["diff"] (E (Mload (Num 0x0460)));
   Mstore (Num 0x0540) (Var "diff");
   Set_ ["diff"] (E (Mload (Num 0x0440)));
   Set_ ["diff"] (E (Ter MULMOD (Var "diff") (Mload (Num 0x04a0)) (Var "r")));
   Mstore (Num 0x0560) (Var "diff")].

(** Halo2Verifier-3-5-g2.sol:1174-1191 *)
Definition old_main_08_02 : stmt := Block [Let ["point_1"] (E (Mload (Num 0x03e0)));
   Let ["point_2"] (E (Mload (Num 0x0400)));
   Let ["point_3"] (E (Mload (Num 0x0420)));
   Let ["coeff"] (E (Num 0));
   Set_ ["coeff"] (E (Ter ADDMOD (Var "point_1") (Bin SUB (Var "r") (Var "point_2")) (Var "r")));
   Set_ ["coeff"] (E (Ter MULMOD (Var "coeff") (Ter ADDMOD (Var "point_1") (Bin SUB (Var "r") (Var "point_3")) (Var "r")) (Var "r")));
   Set_ ["coeff"] (E (Ter MULMOD (Var "coeff") (Mload (Num 0x0460)) (Var "r")));
   Mstore (Num 0x20) (Var "coeff");
   Set_ ["coeff"] (E (Ter ADDMOD (Var "point_2") (Bin SUB (Var "r") (Var "point_1")) (Var "r")));
   Set_ ["coeff"] (E (Ter MULMOD (Var "coeff") (Ter ADDMOD (Var "point_2") (Bin SUB (Var "r") (Var "point_3")) (Var "r")) (Var "r")));
   Set_ ["coeff"] (E (Ter MULMOD (Var "coeff") (Mload (Num 0x0480)) (Var "r")));
   Mstore (Num 0x40) (Var "coeff");
   Set_ ["coeff"] (E (Ter ADDMOD (Var "point_3") (Bin SUB (Var "r") (Var "point_1")) (Var "r")));
   Set_ ["coeff"] (E (Ter MULMOD (Var "coeff") (Ter ADDMOD (Var "point_3") (Bin SUB (Var "r") (Var "point_2")) (Var "r")) (Var "r")));
   Set_ ["coeff"] (E (Ter MULMOD (Var "coeff") (Mload (Num 0x04a0)) (Var "r")));
   Mstore (Num 0x60) (Var "coeff")].

(** Halo2Verifier-3-5-g2.sol:1192-1198 *)
Definition old_main_08_03 : stmt := Block [Let ["point_2"] (E (Mload (Num 0x0400)));
   Let ["coeff"] (E (Num 0));
   Set_ ["coeff"] (E (Num 1));
   Set_ ["coeff"] (E (Ter MULMOD (Var "coeff") (Mload (Num 0x0480)) (Var "r")));
   Mstore (Num 0x80) (Var "coeff")].

(** Halo2Verifier-3-5-g2.sol:1199-1209 *)
Definition old_main_08_04 : stmt := Block [Let ["point_2"] (E (Mload (Num 0x0400)));
   Let ["point_3"] (E (Mload (Num 0x0420)));
   Let ["coeff"] (E (Num 0));
   Set_ ["coeff"] (E (Ter ADDMOD (Var "point_2") (Bin SUB (Var "r") (Var "point_3")) (Var "r")));
   Set_ ["coeff"] (E (Ter MULMOD (Var "coeff") (Mload (Num 0x0480)) (Var "r")));
   Mstore (Num 0xa0) (Var "coeff");
   Set_ ["coeff"] (E (Ter ADDMOD (Var "point_3") (Bin SUB (Var "r") (Var "point_2")) (Var "r")));
   Set_ ["coeff"] (E (Ter MULMOD (Var "coeff") (Mload (Num 0x04a0)) (Var "r")));
   Mstore (Num 0xc0) (Var "coeff")].

(** Halo2Verifier-3-5-g2.sol:1210-1227 *)
Definition old_main_08_05 : stmt := Block [Let ["point_0"] (E (Mload (Num 0x03c0)));
   Let ["point_2"] (E (Mload (Num 0x0400)));
   Let ["point_3"] (E (Mload (Num 0x0420)));
   Let ["coeff"] (E (Num 0));
   Set_ ["coeff"] (E (Ter ADDMOD (Var "point_0") (Bin SUB (Var "r") (Var "point_2")) (Var "r")));
   Set_ ["coeff"] (E (Ter MULMOD (Var "coeff") (Ter ADDMOD (Var "point_0") (Bin SUB (Var "r") (Var "point_3")) (Var "r")) (Var "r")));
   Set_ ["coeff"] (E (Ter MULMOD (Var "coeff") (Mload (Num 0x0440)) (Var "r")));
   Mstore (Num 0xe0) (Var "coeff");
   Set_ ["coeff"] (E (Ter ADDMOD (Var "point_2") (Bin SUB (Var "r") (Var "point_0")) (Var "r")));
   Set_ ["coeff"] (E (Ter MULMOD (Var "coeff") (Ter ADDMOD (Var "point_2") (Bin SUB (Var "r") (Var "point_3")) (Var "r")) (Var "r")));
   Set_ ["coeff"] (E (Ter MULMOD (Var "coeff") (Mload (Num 0x0480)) (Var "r")));
   Mstore (Num 0x0100) (Var "coeff");
   Set_ ["coeff"] (E (Ter ADDMOD (Var "point_3") (Bin SUB (Var "r") (Var "point_0")) (Var "r")));
   Set_ ["coeff"] (E (Ter MULMOD (Var "coeff") (Ter ADDMOD (Var "point_3") (Bin SUB (Var "r") (Var "point_2")) (Var "r")) (Var "r")));
   Set_ ["coeff"] (E (Ter MULMOD (Var "coeff") (Mload (Num 0x04a0)) (Var "r")));
   Mstore (Num 0x0120) (Var "coeff")].

(** Halo2Verifier-3-5-g2.sol:1228-1238 *)
Definition old_main_08_06 : stmt := Block [Let ["point_1"] (E (Mload (Num 0x03e0)));
   Let ["point_2"] (E (Mload (Num 0x0400)));
   Let ["coeff"] (E (Num 0));
   Set_ ["coeff"] (E (Ter ADDMOD (Var "point_1") (Bin SUB (Var "r") (Var "point_2")) (Var "r")));
   Set_ ["coeff"] (E (Ter MULMOD (Var "coeff") (Mload (Num 0x0460)) (Var "r")));
   Mstore (Num 0x0140) (Var "coeff");
   Set_ ["coeff"] (E (Ter ADDMOD (Var "point_2") (Bin SUB (Var "r") (Var "point_1")) (Var "r")));
   Set_ ["coeff"] (E (Ter MULMOD (Var "coeff") (Mload (Num 0x0480)) (Var "r")));
   Mstore (Num 0x0160) (Var "coeff")].

(** Halo2Verifier-3-5-g2.sol:1239-1253 *)
Definition old_main_08_07 : stmt := Block [Set_ ["success"] (Call "batch_invert" [(Var "success"); (Num 0); (Num 0x0180); (Var "r")]);
   Let ["diff_0_inv"] (E (Mload (Num 0x00)));
   Mstore (Num 0x04e0) (Var "diff_0_inv");
   For [Let ["mptr"] (E (Num 0x0500));
   Let ["mptr_end"] (E (Num 0x0580))] (Bin LT (Var "mptr") (Var "mptr_end")) [Set_ ["mptr"] (E (Bin ADD (Var "mptr") (Num 0x20)))]
   [Mstore (Var "mptr") (Ter MULMOD (Mload (Var "mptr")) (Var "diff_0_inv") (Var "r"))]].

(** Halo2Verifier-3-5-g2.sol:1254-1269 *)
Definition old_main_08_08 : stmt := Block [Let ["zeta"] (E (Mload (Num 0x1200)));
   Let ["r_eval"] (E (Num 0));
   Set_ ["r_eval"] (E (Ter ADDMOD (Var "r_eval") (Ter MULMOD (Mload (Num 0x20)) (Cdload (Num 0x08c4)) (Var "r")) (Var "r")));
   Set_ ["r_eval"] (E (Ter ADDMOD (Var "r_eval") (Ter MULMOD (Mload (Num 0x40)) (Cdload (Num 0x07e4)) (Var "r")) (Var "r")));
   Set_ ["r_eval"] (E (Ter ADDMOD (Var "r_eval") (Ter MULMOD (Mload (Num 0x60)) (Cdload (Num 0x08a4)) (Var "r")) (Var "r")));
   Set_ ["r_eval"] (E (Ter MULMOD (Var "r_eval") (Var "zeta") (Var "r")));
   Set_ ["r_eval"] (E (Ter ADDMOD (Var "r_eval") (Ter MULMOD (Mload (Num 0x20)) (Cdload (Num 0x0904)) (Var "r")) (Var "r")));
   Set_ ["r_eval"] (E (Ter ADDMOD (Var "r_eval") (Ter MULMOD (Mload (Num 0x40)) (Cdload (Num 0x07c4)) (Var "r")) (Var "r")));
   Set_ ["r_eval"] (E (Ter ADDMOD (Var "r_eval") (Ter MULMOD (Mload (Num 0x60)) (Cdload (Num 0x0884)) (Var "r")) (Var "r")));
   Set_ ["r_eval"] (E (Ter MULMOD (Var "r_eval") (Var "zeta") (Var "r")));
   Set_ ["r_eval"] (E (Ter ADDMOD (Var "r_eval") (Ter MULMOD (Mload (Num 0x20)) (Cdload (Num 0x08e4)) (Var "r")) (Var "r")));
   Set_ ["r_eval"] (E (Ter ADDMOD (Var "r_eval") (Ter MULMOD (Mload (Num 0x40)) (Cdload (Num 0x07a4)) (Var "r")) (Var "r")));
   Set_ ["r_eval"] (E (Ter ADDMOD (Var "r_eval") (Ter MULMOD (Mload (Num 0x60)) (Cdload (Num 0x0864)) (Var "r")) (Var "r")));
   Mstore (Num 0x0580) (Var "r_eval")].

(** Halo2Verifier-3-5-g2.sol:1270-1311 *)
Definition old_main_08_09 : stmt := Block [Let ["coeff"] (E (Mload (Num 0x80)));
   Let ["zeta"] (E (Mload (Num 0x1200)));
   Let ["r_eval"] (E (Num 0));
   Set_ ["r_eval"] (E (Ter ADDMOD (Var "r_eval") (Ter MULMOD (Var "coeff") (Cdload (Num 0x0c04)) (Var "r")) (Var "r")));
   Set_ ["r_eval"] (E (Ter MULMOD (Var "r_eval") (Var "zeta") (Var "r")));
   Set_ ["r_eval"] (E (Ter ADDMOD (Var "r_eval") (Ter MULMOD (Var "coeff") (Mload (Num 0x13a0)) (Var "r")) (Var "r")));
   For [Let ["mptr"] (E (Num 0x0d24));
   Let ["mptr_end"] (E (Num 0x0c04))] (Bin LT (Var "mptr_end") (Var "mptr")) [Set_ ["mptr"] (E (Bin SUB (Var "mptr") (Num 0x20)))]
   [Set_ ["r_eval"] (E (Ter ADDMOD (Ter MULMOD (Var "r_eval") (Var "zeta") (Var "r")) (Ter MULMOD (Var "coeff") (Cdload (Var "mptr")) (Var "r")) (Var "r")))];
   For [Let ["mptr"] (E (Num 0x0be4));
   Let ["mptr_end"] (E (Num 0x0904))] (Bin LT (Var "mptr_end") (Var "mptr")) [Set_ ["mptr"] (E (Bin SUB (Var "mptr") (Num 0x20)))]
   [Set_ ["r_eval"] (E (Ter ADDMOD (Ter MULMOD (Var "r_eval") (Var "zeta") (Var "r")) (Ter MULMOD (Var "coeff") (Cdload (Var "mptr")) (Var "r")) (Var "r")))];
   Set_ ["r_eval"] (E (Ter MULMOD (Var "r_eval") (Var "zeta") (Var "r")));
   Set_ ["r_eval"] (E (Ter ADDMOD (Var "r_eval") (Ter MULMOD (Var "coeff") (Cdload (Num 0x1144)) (Var "r")) (Var "r")));
   Set_ ["r_eval"] (E (Ter MULMOD (Var "r_eval") (Var "zeta") (Var "r")));
   Set_ ["r_eval"] (E (Ter ADDMOD (Var "r_eval") (Ter MULMOD (Var "coeff") (Cdload (Num 0x10a4)) (Var "r")) (Var "r")));
   Set_ ["r_eval"] (E (Ter MULMOD (Var "r_eval") (Var "zeta") (Var "r")));
   Set_ ["r_eval"] (E (Ter ADDMOD (Var "r_eval") (Ter MULMOD (Var "coeff") (Cdload (Num 0x1004)) (Var "r")) (Var "r")));
   Set_ ["r_eval"] (E (Ter MULMOD (Var "r_eval") (Var "zeta") (Var "r")));
   Set_ ["r_eval"] (E (Ter ADDMOD (Var "r_eval") (Ter MULMOD (Var "coeff") (Cdload (Num 0x0f64)) (Var "r")) (Var "r")));
   Set_ ["r_eval"] (E (Ter MULMOD (Var "r_eval") (Var "zeta") (Var "r")));
   Set_ ["r_eval"] (E (Ter ADDMOD (Var "r_eval") (Ter MULMOD (Var "coeff") (Cdload (Num 0x0ec4)) (Var "r")) (Var "r")));
   Set_ ["r_eval"] (E (Ter MULMOD (Var "r_eval") (Var "zeta") (Var "r")));
   Set_ ["r_eval"] (E (Ter ADDMOD (Var "r_eval") (Ter MULMOD (Var "coeff") (Cdload (Num 0x0804)) (Var "r")) (Var "r")));
   Set_ ["r_eval"] (E (Ter MULMOD (Var "r_eval") (Mload (Num 0x0500)) (Var "r")));
   Mstore (Num 0x05a0) (Var "r_eval")].

(** Halo2Verifier-3-5-g2.sol:1312-1337 *)
Definition old_main_08_10 : stmt := Block [Let ["zeta"] (E (Mload (Num 0x1200)));
   Let ["r_eval"] (E (Num 0));
   Set_ ["r_eval"] (E (Ter ADDMOD (Var "r_eval") (Ter MULMOD (Mload (Num 0xa0)) (Cdload (Num 0x10c4)) (Var "r")) (Var "r")));
   Set_ ["r_eval"] (E (Ter ADDMOD (Var "r_eval") (Ter MULMOD (Mload (Num 0xc0)) (Cdload (Num 0x10e4)) (Var "r")) (Var "r")));
   Set_ ["r_eval"] (E (Ter MULMOD (Var "r_eval") (Var "zeta") (Var "r")));
   Set_ ["r_eval"] (E (Ter ADDMOD (Var "r_eval") (Ter MULMOD (Mload (Num 0xa0)) (Cdload (Num 0x1024)) (Var "r")) (Var "r")));
   Set_ ["r_eval"] (E (Ter ADDMOD (Var "r_eval") (Ter MULMOD (Mload (Num 0xc0)) (Cdload (Num 0x1044)) (Var "r")) (Var "r")));
   Set_ ["r_eval"] (E (Ter MULMOD (Var "r_eval") (Var "zeta") (Var "r")));
   Set_ ["r_eval"] (E (Ter ADDMOD (Var "r_eval") (Ter MULMOD (Mload (Num 0xa0)) (Cdload (Num 0x0f84)) (Var "r")) (Var "r")));
   Set_ ["r_eval"] (E (Ter ADDMOD (Var "r_eval") (Ter MULMOD (Mload (Num 0xc0)) (Cdload (Num 0x0fa4)) (Var "r")) (Var "r")));
   Set_ ["r_eval"] (E (Ter MULMOD (Var "r_eval") (Var "zeta") (Var "r")));
   Set_ ["r_eval"] (E (Ter ADDMOD (Var "r_eval") (Ter MULMOD (Mload (Num 0xa0)) (Cdload (Num 0x0ee4)) (Var "r")) (Var "r")));
   Set_ ["r_eval"] (E (Ter ADDMOD (Var "r_eval") (Ter MULMOD (Mload (Num 0xc0)) (Cdload (Num 0x0f04)) (Var "r")) (Var "r")));
   Set_ ["r_eval"] (E (Ter MULMOD (Var "r_eval") (Var "zeta") (Var "r")));
   Set_ ["r_eval"] (E (Ter ADDMOD (Var "r_eval") (Ter MULMOD (Mload (Num 0xa0)) (Cdload (Num 0x0e44)) (Var "r")) (Var "r")));
   Set_ ["r_eval"] (E (Ter ADDMOD (Var "r_eval") (Ter MULMOD (Mload (Num 0xc0)) (Cdload (Num 0x0e64)) (Var "r")) (Var "r")));
   Set_ ["r_eval"] (E (Ter MULMOD (Var "r_eval") (Var "zeta") (Var "r")));
   Set_ ["r_eval"] (E (Ter ADDMOD (Var "r_eval") (Ter MULMOD (Mload (Num 0xa0)) (Cdload (Num 0x0e04)) (Var "r")) (Var "r")));
   Set_ ["r_eval"] (E (Ter ADDMOD (Var "r_eval") (Ter MULMOD (Mload (Num 0xc0)) (Cdload (Num 0x0e24)) (Var "r")) (Var "r")));
   Set_ ["r_eval"] (E (Ter MULMOD (Var "r_eval") (Var "zeta") (Var "r")));
   Set_ ["r_eval"] (E (Ter ADDMOD (Var "r_eval") (Ter MULMOD (Mload (Num 0xa0)) (Cdload (Num 0x0824)) (Var "r")) (Var "r")));
   Set_ ["r_eval"] (E (Ter ADDMOD (Var "r_eval") (Ter MULMOD (Mload (Num 0xc0)) (Cdload (Num 0x0844)) (Var "r")) (Var "r")));
   Set_ ["r_eval"] (E (Ter MULMOD (Var "r_eval") (Mload (Num 0x0520)) (Var "r")));
   Mstore (Num 0x05c0) (Var "r_eval")].

(** Halo2Verifier-3-5-g2.sol:1338-1350 *)
Definition old_main_08_11 : stmt := Block [Let ["zeta"] (E (Mload (Num 0x1200)));
   Let ["r_eval"] (E (Num 0));
   Set_ ["r_eval"] (E (Ter ADDMOD (Var "r_eval") (Ter MULMOD (Mload (Num 0xe0)) (Cdload (Num 0x0de4)) (Var "r")) (Var "r")));
   Set_ ["r_eval"] (E (Ter ADDMOD (Var "r_eval") (Ter MULMOD (Mload (Num 0x0100)) (Cdload (Num 0x0da4)) (Var "r")) (Var "r")));
   Set_ ["r_eval"] (E (Ter ADDMOD (Var "r_eval") (Ter MULMOD (Mload (Num 0x0120)) (Cdload (Num 0x0dc4)) (Var "r")) (Var "r")));
   Set_ ["r_eval"] (E (Ter MULMOD (Var "r_eval") (Var "zeta") (Var "r")));
   Set_ ["r_eval"] (E (Ter ADDMOD (Var "r_eval") (Ter MULMOD (Mload (Num 0xe0)) (Cdload (Num 0x0d84)) (Var "r")) (Var "r")));
   Set_ ["r_eval"] (E (Ter ADDMOD (Var "r_eval") (Ter MULMOD (Mload (Num 0x0100)) (Cdload (Num 0x0d44)) (Var "r")) (Var "r")));
   Set_ ["r_eval"] (E (Ter ADDMOD (Var "r_eval") (Ter MULMOD (Mload (Num 0x0120)) (Cdload (Num 0x0d64)) (Var "r")) (Var "r")));
   Set_ ["r_eval"] (E (Ter MULMOD (Var "r_eval") (Mload (Num 0x0540)) (Var "r")));
   Mstore (Num 0x05e0) (Var "r_eval")].

(** Halo2Verifier-3-5-g2.sol:1351-1370 *)
Definition old_main_08_12 : stmt := Block [Let ["zeta"] (E (Mload (Num 0x1200)));
   Let ["r_eval"] (E (Num 0));
   Set_ ["r_eval"] (E (Ter ADDMOD (Var "r_eval") (Ter MULMOD (Mload (Num 0x0140)) (Cdload (Num 0x1124)) (Var "r")) (Var "r")));
   Set_ ["r_eval"] (E (Ter ADDMOD (Var "r_eval") (Ter MULMOD (Mload (Num 0x0160)) (Cdload (Num 0x1104)) (Var "r")) (Var "r")));
   Set_ ["r_eval"] (E (Ter MULMOD (Var "r_eval") (Var "zeta") (Var "r")));
   Set_ ["r_eval"] (E (Ter ADDMOD (Var "r_eval") (Ter MULMOD (Mload (Num 0x0140)) (Cdload (Num 0x1084)) (Var "r")) (Var "r")));
   Set_ ["r_eval"] (E (Ter ADDMOD (Var "r_eval") (Ter MULMOD (Mload (Num 0x0160)) (Cdload (Num 0x1064)) (Var "r")) (Var "r")));
   Set_ ["r_eval"] (E (Ter MULMOD (Var "r_eval") (Var "zeta") (Var "r")));
   Set_ ["r_eval"] (E (Ter ADDMOD (Var "r_eval") (Ter MULMOD (Mload (Num 0x0140)) (Cdload (Num 0x0fe4)) (Var "r")) (Var "r")));
   Set_ ["r_eval"] (E (Ter ADDMOD (Var "r_eval") (Ter MULMOD (Mload (Num 0x0160)) (Cdload (Num 0x0fc4)) (Var "r")) (Var "r")));
   Set_ ["r_eval"] (E (Ter MULMOD (Var "r_eval") (Var "zeta") (Var "r")));
   Set_ ["r_eval"] (E (Ter ADDMOD (Var "r_eval") (Ter MULMOD (Mload (Num 0x0140)) (Cdload (Num 0x0f44)) (Var "r")) (Var "r")));
   Set_ ["r_eval"] (E (Ter ADDMOD (Var "r_eval") (Ter MULMOD (Mload (Num 0x0160)) (Cdload (Num 0x0f24)) (Var "r")) (Var "r")));
   Set_ ["r_eval"] (E (Ter MULMOD (Var "r_eval") (Var "zeta") (Var "r")));
   Set_ ["r_eval"] (E (Ter ADDMOD (Var "r_eval") (Ter MULMOD (Mload (Num 0x0140)) (Cdload (Num 0x0ea4)) (Var "r")) (Var "r")));
   Set_ ["r_eval"] (E (Ter ADDMOD (Var "r_eval") (Ter MULMOD (Mload (Num 0x0160)) (Cdload (Num 0x0e84)) (Var "r")) (Var "r")));
   Set_ ["r_eval"] (E (Ter MULMOD (Var "r_eval") (Mload (Num 0x0560)) (Var "r")));
   Mstore (Num 0x0600) (Var "r_eval")].

(** Halo2Verifier-3-5-g2.sol:1371-1376 *)
Definition old_main_08_13 : stmt := Block [Let ["sum"] (E (Mload (Num 0x20)));
   Set_ ["sum"] (E (Ter ADDMOD (Var "sum") (Mload (Num 0x40)) (Var "r")));
   Set_ ["sum"] (E (Ter ADDMOD (Var "sum") (Mload (Num 0x60)) (Var "r")));
   Mstore (Num 0x0620) (Var "sum")].

(** Halo2Verifier-3-5-g2.sol:1377-1380 *)
Definition old_main_08_14 : stmt := Block [Let ["sum"] (E (Mload (Num 0x80)));
   Mstore (Num 0x0640) (Var "sum")].

(** Halo2Verifier-3-5-g2.sol:1381-1385 *)
Definition old_main_08_15 : stmt := Block [Let ["sum"] (E (Mload (Num 0xa0)));
   Set_ ["sum"] (E (Ter ADDMOD (Var "sum") (Mload (Num 0xc0)) (Var "r")));
   Mstore (Num 0x0660) (Var "sum")].

(** Halo2Verifier-3-5-g2.sol:1386-1391 *)
Definition old_main_08_16 : stmt := Block [Let ["sum"] (E (Mload (Num 0xe0)));
   Set_ ["sum"] (E (Ter ADDMOD (Var "sum") (Mload (Num 0x0100)) (Var "r")));
   Set_ ["sum"] (E (Ter ADDMOD (Var "sum") (Mload (Num 0x0120)) (Var "r")));
   Mstore (Num 0x0680) (Var "sum")].

(** Halo2Verifier-3-5-g2.sol:1392-1396 *)
Definition old_main_08_17 : stmt := Block [Let ["sum"] (E (Mload (Num 0x0140)));
   Set_ ["sum"] (E (Ter ADDMOD (Var "sum") (Mload (Num 0x0160)) (Var "r")));
   Mstore (Num 0x06a0) (Var "sum")].

(** Halo2Verifier-3-5-g2.sol:1397-1430 *)
Definition old_main_08_18 : stmt := Block [For [Let ["mptr"] (E (Num 0x00));
   Let ["mptr_end"] (E (Num 0xa0));
   Let ["sum_mptr"] (E (Num 0x0620))] (Bin LT (Var "mptr") (Var "mptr_end")) [Set_ ["mptr"] (E (Bin ADD (Var "mptr") (Num 0x20)));
   Set_ ["sum_mptr"] (E (Bin ADD (Var "sum_mptr") (Num 0x20)))]
   [Mstore (Var "mptr") (Mload (Var "sum_mptr"))];
   Set_ ["success"] (Call "batch_invert" [(Var "success"); (Num 0); (Num 0xa0); (Var "r")]);
   Let ["r_eval"] (E (Ter MULMOD (Mload (Num 0x80)) (Mload (Num 0x0600)) (Var "r")));
   For [Let ["sum_inv_mptr"] (E (Num 0x60));
   Let ["sum_inv_mptr_end"] (E (Num 0xa0));
   Let ["r_eval_mptr"] (E (Num 0x05e0))] (Bin LT (Var "sum_inv_mptr") (Var "sum_inv_mptr_end")) [Set_ ["sum_inv_mptr"] (E (Bin SUB (Var "sum_inv_mptr") (Num 0x20)));
   Set_ ["r_eval_mptr"] (E (Bin SUB (Var "r_eval_mptr") (Num 0x20)))]
   [Set_ ["r_eval"] (E (Ter MULMOD (Var "r_eval") (Mload (Num 0x1220)) (Var "r")));
   Set_ ["r_eval"] (E (Ter ADDMOD (Var "r_eval") (Ter MULMOD (Mload (Var "sum_inv_mptr")) (Mload (Var "r_eval_mptr")) (Var "r")) (Var "r")))];
   Mstore (Num 0x1400) (Var "r_eval")].

(** Halo2Verifier-3-5-g2.sol:1431-1572 *)
Definition old_main_08_19 : stmt := Block [Let ["nu"] (E (Mload (Num 0x1220)));
   Mstore (Num 0x00) (Cdload (Num 0xe4));
   Mstore (Num 0x20) (Cdload (Num 0x0104));
   Set_ ["success"] (Call "ec_mul_acc" [(Var "success"); (Mload (Num 0x1200))]);
   Set_ ["success"] (Call "ec_add_acc" [(Var "success"); (Cdload (Num 0xa4)); (Cdload (Num 0xc4))]);
   Set_ ["success"] (Call "ec_mul_acc" [(Var "success"); (Mload (Num 0x1200))]);
   Set_ ["success"] (Call "ec_add_acc" [(Var "success"); (Cdload (Num 0x64)); (Cdload (Num 0x84))]);
   Mstore (Num 0x80) (Cdload (Num 0x0624));
   Mstore (Num 0xa0) (Cdload (Num 0x0644));
   Set_ ["success"] (Call "ec_mul_tmp" [(Var "success"); (Mload (Num 0x1200))]);
   Set_ ["success"] (Call "ec_add_tmp" [(Var "success"); (Mload (Num 0x13c0)); (Mload (Num 0x13e0))]);
   For [Let ["mptr"] (E (Num 0x1120));
   Let ["mptr_end"] (E (Num 0x0da0))] (Bin LT (Var "mptr_end") (Var "mptr")) [Set_ ["mptr"] (E (Bin SUB (Var "mptr") (Num 0x40)))]
   [Set_ ["success"] (Call "ec_mul_tmp" [(Var "success"); (Mload (Num 0x1200))]);
   Set_ ["success"] (Call "ec_add_tmp" [(Var "success"); (Mload (Var "mptr")); (Mload (Bin ADD (Var "mptr") (Num 0x20)))])];
   For [Let ["mptr"] (E (Num 0x0ce0));
   Let ["mptr_end"] (E (Num 0x0c20))] (Bin LT (Var "mptr_end") (Var "mptr")) [Set_ ["mptr"] (E (Bin SUB (Var "mptr") (Num 0x40)))]
   [Set_ ["success"] (Call "ec_mul_tmp" [(Var "success"); (Mload (Num 0x1200))]);
   Set_ ["success"] (Call "ec_add_tmp" [(Var "success"); (Mload (Var "mptr")); (Mload (Bin ADD (Var "mptr") (Num 0x20)))])];
   For [Let ["mptr"] (E (Num 0x0da0));
   Let ["mptr_end"] (E (Num 0x0ce0))] (Bin LT (Var "mptr_end") (Var "mptr")) [Set_ ["mptr"] (E (Bin SUB (Var "mptr") (Num 0x40)))]
   [Set_ ["success"] (Call "ec_mul_tmp" [(Var "success"); (Mload (Num 0x1200))]);
   Set_ ["success"] (Call "ec_add_tmp" [(Var "success"); (Mload (Var "mptr")); (Mload (Bin ADD (Var "mptr") (Num 0x20)))])];
   For [Let ["mptr"] (E (Num 0x0c20));
   Let ["mptr_end"] (E (Num 0x0b20))] (Bin LT (Var "mptr_end") (Var "mptr")) [Set_ ["mptr"] (E (Bin SUB (Var "mptr") (Num 0x40)))]
   [Set_ ["success"] (Call "ec_mul_tmp" [(Var "success"); (Mload (Num 0x1200))]);
   Set_ ["success"] (Call "ec_add_tmp" [(Var "success"); (Mload (Var "mptr")); (Mload (Bin ADD (Var "mptr") (Num 0x20)))])];
   Set_ ["success"] (Call "ec_mul_tmp" [(Var "success"); (Mload (Num 0x1200))]);
   Set_ ["success"] (Call "ec_add_tmp" [(Var "success"); (Mload (Num 0x0ae0)); (Mload (Num 0x0b00))]);
   Set_ ["success"] (Call "ec_mul_tmp" [(Var "success"); (Mload (Num 0x1200))]);
   Set_ ["success"] (Call "ec_add_tmp" [(Var "success"); (Mload (Num 0x0aa0)); (Mload (Num 0x0ac0))]);
   Set_ ["success"] (Call "ec_mul_tmp" [(Var "success"); (Mload (Num 0x1200))]);
   Set_ ["success"] (Call "ec_add_tmp" [(Var "success"); (Mload (Num 0x0b20)); (Mload (Num 0x0b40))]);
   For [Let ["mptr"] (E (Num 0x0a60));
   Let ["mptr_end"] (E (Num 0x0920))] (Bin LT (Var "mptr_end") (Var "mptr")) [Set_ ["mptr"] (E (Bin SUB (Var "mptr") (Num 0x40)))]
   [Set_ ["success"] (Call "ec_mul_tmp" [(Var "success"); (Mload (Num 0x1200))]);
   Set_ ["success"] (Call "ec_add_tmp" [(Var "success"); (Mload (Var "mptr")); (Mload (Bin ADD (Var "mptr") (Num 0x20)))])];
   Set_ ["success"] (Call "ec_mul_tmp" [(Var "success"); (Mload (Num 0x1200))]);
   Set_ ["success"] (Call "ec_add_tmp" [(Var "success"); (Cdload (Num 0x03e4)); (Cdload (Num 0x0404))]);
   Set_ ["success"] (Call "ec_mul_tmp" [(Var "success"); (Mload (Num 0x1200))]);
   Set_ ["success"] (Call "ec_add_tmp" [(Var "success"); (Cdload (Num 0x0364)); (Cdload (Num 0x0384))]);
   Set_ ["success"] (Call "ec_mul_tmp" [(Var "success"); (Mload (Num 0x1200))]);
   Set_ ["success"] (Call "ec_add_tmp" [(Var "success"); (Cdload (Num 0x02e4)); (Cdload (Num 0x0304))]);
   Set_ ["success"] (Call "ec_mul_tmp" [(Var "success"); (Mload (Num 0x1200))]);
   Set_ ["success"] (Call "ec_add_tmp" [(Var "success"); (Cdload (Num 0x0264)); (Cdload (Num 0x0284))]);
   Set_ ["success"] (Call "ec_mul_tmp" [(Var "success"); (Mload (Num 0x1200))]);
   Set_ ["success"] (Call "ec_add_tmp" [(Var "success"); (Cdload (Num 0x01e4)); (Cdload (Num 0x0204))]);
   Set_ ["success"] (Call "ec_mul_tmp" [(Var "success"); (Mload (Num 0x1200))]);
   Set_ ["success"] (Call "ec_add_tmp" [(Var "success"); (Cdload (Num 0x0124)); (Cdload (Num 0x0144))]);
   Set_ ["success"] (Call "ec_mul_tmp" [(Var "success"); (Ter MULMOD (Var "nu") (Mload (Num 0x0500)) (Var "r"))]);
   Set_ ["success"] (Call "ec_add_acc" [(Var "success"); (Mload (Num 0x80)); (Mload (Num 0xa0))]);
   Set_ ["nu"] (E (Ter MULMOD (Var "nu") (Mload (Num 0x1220)) (Var "r")));
   Mstore (Num 0x80) (Cdload (Num 0x05e4));
   Mstore (Num 0xa0) (Cdload (Num 0x0604));
   For [Let ["mptr"] (E (Num 0x05a4));
   Let ["mptr_end"] (E (Num 0x0464))] (Bin LT (Var "mptr_end") (Var "mptr")) [Set_ ["mptr"] (E (Bin SUB (Var "mptr") (Num 0x40)))]
   [Set_ ["success"] (Call "ec_mul_tmp" [(Var "success"); (Mload (Num 0x1200))]);
   Set_ ["success"] (Call "ec_add_tmp" [(Var "success"); (Cdload (Var "mptr")); (Cdload (Bin ADD (Var "mptr") (Num 0x20)))])];
   Set_ ["success"] (Call "ec_mul_tmp" [(Var "success"); (Mload (Num 0x1200))]);
   Set_ ["success"] (Call "ec_add_tmp" [(Var "success"); (Cdload (Num 0x0164)); (Cdload (Num 0x0184))]);
   Set_ ["success"] (Call "ec_mul_tmp" [(Var "success"); (Ter MULMOD (Var "nu") (Mload (Num 0x0520)) (Var "r"))]);
   Set_ ["success"] (Call "ec_add_acc" [(Var "success"); (Mload (Num 0x80)); (Mload (Num 0xa0))]);
   Set_ ["nu"] (E (Ter MULMOD (Var "nu") (Mload (Num 0x1220)) (Var "r")));
   Mstore (Num 0x80) (Cdload (Num 0x0464));
   Mstore (Num 0xa0) (Cdload (Num 0x0484));
   Set_ ["success"] (Call "ec_mul_tmp" [(Var "success"); (Mload (Num 0x1200))]);
   Set_ ["success"] (Call "ec_add_tmp" [(Var "success"); (Cdload (Num 0x0424)); (Cdload (Num 0x0444))]);
   Set_ ["success"] (Call "ec_mul_tmp" [(Var "success"); (Ter MULMOD (Var "nu") (Mload (Num 0x0540)) (Var "r"))]);
   Set_ ["success"] (Call "ec_add_acc" [(Var "success"); (Mload (Num 0x80)); (Mload (Num 0xa0))]);
   Set_ ["nu"] (E (Ter MULMOD (Var "nu") (Mload (Num 0x1220)) (Var "r")));
   Mstore (Num 0x80) (Cdload (Num 0x03a4));
   Mstore (Num 0xa0) (Cdload (Num 0x03c4));
   Set_ ["success"] (Call "ec_mul_tmp" [(Var "success"); (Mload (Num 0x1200))]);
   Set_ ["success"] (Call "ec_add_tmp" [(Var "success"); (Cdload (Num 0x0324)); (Cdload (Num 0x0344))]);
   Set_ ["success"] (Call "ec_mul_tmp" [(Var "success"); (Mload (Num 0x1200))]);
   Set_ ["success"] (Call "ec_add_tmp" [(Var "success"); (Cdload (Num 0x02a4)); (Cdload (Num 0x02c4))]);
   Set_ ["success"] (Call "ec_mul_tmp" [(Var "success"); (Mload (Num 0x1200))]);
   Set_ ["success"] (Call "ec_add_tmp" [(Var "success"); (Cdload (Num 0x0224)); (Cdload (Num 0x0244))]);
   Set_ ["success"] (Call "ec_mul_tmp" [(Var "success"); (Mload (Num 0x1200))]);
   Set_ ["success"] (Call "ec_add_tmp" [(Var "success"); (Cdload (Num 0x01a4)); (Cdload (Num 0x01c4))]);
   Set_ ["success"] (Call "ec_mul_tmp" [(Var "success"); (Ter MULMOD (Var "nu") (Mload (Num 0x0560)) (Var "r"))]);
   Set_ ["success"] (Call "ec_add_acc" [(Var "success"); (Mload (Num 0x80)); (Mload (Num 0xa0))]);
   Mstore (Num 0x80) (Mload (Num 0x0820));
   Mstore (Num 0xa0) (Mload (Num 0x0840));
   Set_ ["success"] (Call "ec_mul_tmp" [(Var "success"); (Bin SUB (Var "r") (Mload (Num 0x1400)))]);
   Set_ ["success"] (Call "ec_add_acc" [(Var "success"); (Mload (Num 0x80)); (Mload (Num 0xa0))]);
   Mstore (Num 0x80) (Cdload (Num 0x1164));
   Mstore (Num 0xa0) (Cdload (Num 0x1184));
   Set_ ["success"] (Call "ec_mul_tmp" [(Var "success"); (Bin SUB (Var "r") (Mload (Num 0x04c0)))]);
   Set_ ["success"] (Call "ec_add_acc" [(Var "success"); (Mload (Num 0x80)); (Mload (Num 0xa0))]);
   Mstore (Num 0x80) (Cdload (Num 0x11a4));
   Mstore (Num 0xa0) (Cdload (Num 0x11c4));
   Set_ ["success"] (Call "ec_mul_tmp" [(Var "success"); (Mload (Num 0x1240))]);
   Set_ ["success"] (Call "ec_add_acc" [(Var "success"); (Mload (Num 0x80)); (Mload (Num 0xa0))]);
   Mstore (Num 0x1420) (Mload (Num 0x00));
   Mstore (Num 0x1440) (Mload (Num 0x20));
   Mstore (Num 0x1460) (Cdload (Num 0x11a4));
   Mstore (Num 0x1480) (Cdload (Num 0x11c4))].

(** Halo2Verifier-3-5-g2.sol:1119-1573 *)
Definition old_main_08 : stmt := Block [old_main_08_00; old_main_08_01; old_main_08_02; old_main_08_03; old_main_08_04; old_main_08_05; old_main_08_06; old_main_08_07; old_main_08_08; old_main_08_09; old_main_08_10; old_main_08_11; old_main_08_12; old_main_08_13; old_main_08_14; old_main_08_15; old_main_08_16; old_main_08_17; old_main_08_18; old_main_08_19].

(** Halo2Verifier-3-5-g2.sol:1576-1600 *)
Definition old_main_09 : stmt := If (Mload (Num 0x07a0)) [Mstore (Num 0x00) (Mload (Num 0x1260));
   Mstore (Num 0x20) (Mload (Num 0x1280));
   Mstore (Num 0x40) (Mload (Num 0x12a0));
   Mstore (Num 0x60) (Mload (Num 0x12c0));
   Mstore (Num 0x80) (Mload (Num 0x1420));
   Mstore (Num 0xa0) (Mload (Num 0x1440));
   Mstore (Num 0xc0) (Mload (Num 0x1460));
   Mstore (Num 0xe0) (Mload (Num 0x1480));
   Let ["challenge"] (E (Bin MOD (Keccak (Num 0x00) (Num 0x100)) (Var "r")));
   Set_ ["success"] (Call "ec_mul_acc" [(Var "success"); (Var "challenge")]);
   Set_ ["success"] (Call "ec_add_acc" [(Var "success"); (Mload (Num 0x1420)); (Mload (Num 0x1440))]);
   Mstore (Num 0x1420) (Mload (Num 0x00));
   Mstore (Num 0x1440) (Mload (Num 0x20));
   Mstore (Num 0x00) (Mload (Num 0x12a0));
   Mstore (Num 0x20) (Mload (Num 0x12c0));
   Set_ ["success"] (Call "ec_mul_acc" [(Var "success"); (Var "challenge")]);
   Set_ ["success"] (Call "ec_add_acc" [(Var "success"); (Mload (Num 0x1460)); (Mload (Num 0x1480))]);
   Mstore (Num 0x1460) (Mload (Num 0x00));
   Mstore (Num 0x1480) (Mload (Num 0x20))].

(** Halo2Verifier-3-5-g2.sol:1603-1609 *)
Definition old_main_10 : stmt := Set_ ["success"] (Call "ec_pairing" [(Var "success"); (Mload (Num 0x1420)); (Mload (Num 0x1440)); (Mload (Num 0x1460)); (Mload (Num 0x1480))]).

(** Halo2Verifier-3-5-g2.sol:1612-1614 *)
Definition old_main_11 : stmt := If (Iszero (Var "success")) [Revert (Num 0x00) (Num 0x00)].

(** Halo2Verifier-3-5-g2.sol:1617 *)
Definition old_main_12 : stmt := Mstore (Num 0x00) (Num 1).

(** Halo2Verifier-3-5-g2.sol:1618 *)
Definition old_main_13 : stmt := Return (Num 0x00) (Num 0x20).

(** Halo2Verifier-3-5-g2.sol:71-1619 *)
Definition old_main : list stmt := [old_main_00; old_main_01; old_main_02; old_main_03; old_main_04; old_main_05; old_main_06; old_main_07; old_main_08; old_main_09; old_main_10; old_main_11; old_main_12; old_main_13].

(** The embedded key: Halo2Verifier-3-5-g2.sol:317-401, words in order (memory 0x06c0 on) *)
Definition old_key : list Z := [
  0x10fa432e037aeb212cb11a4cf27da42780d01d0a6e1fc881c85ced8145ec5275;
  0x0000000000000000000000000000000000000000000000000000000000000031;
  0x0000000000000000000000000000000000000000000000000000000000000012;
  0x30644259cd94e7dd5045d7a27013b7fcd21c9e3b7fa75222e7bda49b729b0401;
  0x0f60c8fe0414cb9379b2d39267945f6bd60d06a05216231b26a9fcf88ddbfebe;
  0x0e1165d221ab96da2bb4efe1b8fbf541b58d00917384a41bc6ab624d6d3e2b76;
  0x15a9c33a6d34b8fb8e5c3ff61814ca50c878ed14bc17d9442cd5c127bf33fd6d;
  0x0000000000000000000000000000000000000000000000000000000000000000;
  0x0000000000000000000000000000000000000000000000000000000000000000;
  0x0000000000000000000000000000000000000000000000000000000000000000;
  0x0000000000000000000000000000000000000000000000000000000000000000;
  0x0000000000000000000000000000000000000000000000000000000000000001;
  0x0000000000000000000000000000000000000000000000000000000000000002;
  0x198e9393920d483a7260bfb731fb5d25f1aa493335a9e71297e485b7aef312c2;
  0x1800deef121f1e76426a00665e5c4479674322d4f75edadd46debd5cd992f6ed;
  0x090689d0585ff075ec9e99ad690c3395bc4b313370b38ef355acdadcd122975b;
  0x12c85ea5db8c6deb4aab71808dcb408fe3d1e7690c43d37b4ce6cc0166fa7daa;
  0x186282957db913abd99f91db59fe69922e95040603ef44c0bd7aa3adeef8f5ac;
  0x17944351223333f260ddc3b4af45191b856689eda9eab5cbcddbbe570ce860d2;
  0x06d971ff4a7467c3ec596ed6efc674572e32fd6f52b721f97e35b0b3d3546753;
  0x06ecdb9f9567f59ed2eee36e1e1d58797fd13cc97fafc2910f5e8a12f202fa9a;
  0x00bc6388571acab02cda68e5a8bc270814901720cfbea81eb8724c7af531c569;
  0x200a4872e44dca25c35665326a6f93e4d9da70ff6973dcb9d5e0b42c3ce116af;
  0x282550d9ee373535c2ebf3b036f697019936b55058505d0f6189ec8ea21c9acc;
  0x272751b797197a5724f134145c2498e38007e1f95d4be900adadc6d5b1c3b85b;
  0x0a983c13efedb3dbde09575a38b084d7cd92bf31ef63a789aa177d6c67496bbd;
  0x0612474eab97ce1ae19deb0c16119696af7dfa3370f305bf2ab12c7cce5bbfa1;
  0x27e5aefcf48fab4ca7696853e4bc71988a1cfa552ef96c7a9c87c1373ff18922;
  0x21c6a2115445443dae670a95f07cdb9f4a88fd5c6a4055a07d5bfdf99da1fb1c;
  0x0112411ff18c94adbe82d1decc4ced25404ddf0493d5352735f3eb1e577443c8;
  0x20493c257486ef4cf2eb693e7359acbf6713b3d6b534ef747fae4668d2505af7;
  0x15de9e05b85fac65a2c4a7f8778b46fcb7b8bef3f363b35f4ad5385717f7a294;
  0x0852909412087958094606c7579c89ab450c5fad58b710151d9be674658304bd;
  0x0659b386cf7ccd875ef11622bd16801e87013b56d4a71f49c41f6b6f93d8f3f9;
  0x0e8975b7bf3282d0f86a202a2761b7ad8a2ec5ee44126eff020da83df3dacabc;
  0x248ba7caade3d9c870a0fd86122b4f12d4159fff151e046c7329e29f8670b3f0;
  0x0b53e3ddefc2b34c91767a6bcd90b6ab63986a6fc85ba0f82ff3ede59db95aa3;
  0x0280950dcf4c88569d4ac09d08a64b1d7e5dda9a92025f3a67831b52cc54f5d3;
  0x0159a84799c5a2b70e801b709733a9452e0dbc3bcc5fec2b11a17c246fff8172;
  0x081a1d562f38b857fb7e200bb455094a011510db9ac0352f4a01fee1674d134d;
  0x19421a4d1ab26b52bd8d1826af0c406339c8a4859e24c56dd25a7d7a72632b40;
  0x098055bc990ea7766dbcd9e68cab85424dbc1e35b475b828ac74bad04a0e4993;
  0x2dff61482366aedf115b5620ecba51925967fd2b76f882535d3a8440bb9e632e;
  0x01eaa7a4310ac5481d5c765ac7c2c7f666aaf00d5a7ee700c9237f27640ce87e;
  0x1cf4fb417ac9b7bcbd4c1ae5732bbc4b9c1c7451b3516e4373472a3b7086e042;
  0x129c2d2d6b2ca3abdb966561c4d83b5450580863ede453740aa16236a7d0e950;
  0x221ceefd36ad52d134757be39ef99bd1ac7f7662903f6eec91361c985edc0bdd;
  0x2faf1b96f708613100be4ceacf3355f7c17e400039e0f1cfed7ea6e604ff06ab;
  0x0c0fda12449a8d3d713fb41226f27ea2c6b5906183098e875d2b94d2d7b96898;
  0x0c13a3ad660e1e595d1e8a5363868a756b46b1170d2c968cfe2dcf2adde2b1fa;
  0x239e78146447abab3b8d795fce6242eb93a0c9b3b919b25e07f8a45cc34f3868;
  0x051afc90418b9a6baed57d365ffc501a067eec32836012c08a51763f50d3fab2;
  0x12ddc1d2cf2b2227bfff9ab73f8336caaa1e28b2ad70c8d1a1d78ab85c417e7a;
  0x29536a715aee15e71ea8ee40775fec828788e3219b7bcfea25394004544d23f1;
  0x1add119c8075388eb7791920449c32378eb8f17a43043aebb88f498379e4b568;
  0x1426965bfa5443bbdfb8d1101a5ab0e734161ecc1be23820178e219a0975b4e5;
  0x034721b25e503eb1233d61eef6f9102d6c7c975f5fbf181dc8146df122db72d5;
  0x0c520ec975d97565332531a187896cc85216282f781fba4ad72373d3f9091fd6;
  0x224bf5aae92cae9ed520b34bf3657ca187a7d0f37503db8fe385f2b6e358acca;
  0x16e3e5fa3f06db1c4b656ded3d30d5ad9c0f340c87f989c32ff8039cb1c194a2;
  0x12fc34ef6aa6abf30bd4b81119f6e9048ccd310523a6026867c5233976781b3a;
  0x15e4d60697a9564cb96c64b988d71b510fb41d872ed625fd097a0fa286adca55;
  0x1e97db0425468e005063704e9fdd4a924323ad25180dc97a2bce0db16d5affd9;
  0x269ff0bc3c43011b5c373d79f21808e67d938665b4290f14c0fbd49150ce6b73;
  0x178c99b923272f94ddf9df039b074efa414c4e6759600b744827d4355f15148d;
  0x0db0f43b0d089dae35c35c99ecd6195c0235029f6fd7bd9c03e5e78ca6030ec8;
  0x21d212f61ce096cced931103f4dc96f3979b3923351c7becfdedff8c9ac0b697;
  0x1d5f006ae4015b1e4cbc02635a094c8c6de11f0b04eaae28e704a1ead9e9933c;
  0x304b38c2f74d9c4eec40422e16941d546b8ddd34d49f2d34256d7d22f2579481;
  0x0c705651a938f92b8a38538eaa996e5867332ef8078478ff5a6aa044207a5ca4;
  0x071ecb2aa841f16186b855dff89e57d0583aa24d18153b1cbba9dbbf0a1bb145;
  0x21ecda48829469f0b2b7b2af1aa4a89cbeedc5666d9ca5d86149f79fcad51b7c;
  0x271026109abc06e58f82abe9bcd84f8cad084da5b66f307c1e24c83ca2f5528f;
  0x05c4977ef409a1eb678fb80fa466d80fe1aeb5bd63d8fb21d3715f5696b6370f;
  0x2aeee08b63d24ffeadf6505b894e1ecfd3e50b33eb5331c290f222d2ef3137cf;
  0x2a74e21bdedfb9fd48b95682b006f8292989f80e8e5fc7c7e946d1fa8fd5aa80;
  0x2c883f46d50365189cb3c7b8d31012e97ab3cc0c2f43498808767c3b2c678ae3;
  0x0e598be5b2d6744a589d3f2997a7bf0f033318156a9b2f947946df18a27ff6dc;
  0x2e46c59b3c5fc53fbe07026dec3b903debf984f4a48933cc773e9f155abadb10;
  0x1df9d3063bdb368ae737da7b2e62d0ac6af9eadb17e234ae430732c881b7e066;
  0x1af603ccc57869a723e531dfd8ce2f0b1a2c3ae5dc7f2d02e92b2c49bcb6a843;
  0x13ab267051d6a77d28fee208708d3b7e8bb36637e441724a5cb96095ed50187a;
  0x262f5493e2aa9d750f56a70fa203b4658b7c9c058097abc6f205bc05941da0aa;
  0x01a7837e6470babb230978a3079af34e382588caaf1c0c791e81f37222798929;
  0x155c9bea95acf37b018196229c82254163940010ab902b96a4dcde67c6a99a6f].
