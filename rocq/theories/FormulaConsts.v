(* GENERATED by tools/gen_consts.py from the text of /repo/contracts/formula/fixed_map_formula.py.
   Every literal below is the literal at the cited line of that file. *)
From Coq Require Import ZArith List.
Import ListNotations.
Local Open Scope Z_scope.

(* fixed_map_formula.py:28 _ONE *)
Definition ONE : Z := 1.

(* fixed_map_formula.py:29 _MAX_WEIGHT *)
Definition MAX_WEIGHT : Z := 1000000.

(* fixed_map_formula.py:30 _MIN_PRECISION *)
Definition MIN_PRECISION : Z := 32.

(* fixed_map_formula.py:31 _MAX_PRECISION *)
Definition MAX_PRECISION : Z := 127.

(* fixed_map_formula.py:34 _FIXED_1 *)
Definition FIXED_1 : Z := 0x80000000000000000000000000000000.

(* fixed_map_formula.py:35 _FIXED_2 *)
Definition FIXED_2 : Z := 0x100000000000000000000000000000000.

(* fixed_map_formula.py:36 _MAX_NUM *)
Definition MAX_NUM : Z := 0x200000000000000000000000000000000.

(* fixed_map_formula.py:39 _LN2_NUMERATOR *)
Definition LN2_NUMERATOR : Z := 0x3f80fe03f80fe03f80fe03f80fe03f8.

(* fixed_map_formula.py:40 _LN2_DENOMINATOR *)
Definition LN2_DENOMINATOR : Z := 0x5b9de1d10bf4103d647b0955897ba80.

(* fixed_map_formula.py:43 _OPT_LOG_MAX_VAL *)
Definition OPT_LOG_MAX_VAL : Z := 0x15bf0a8b1457695355fb8ac404e7a79e3.

(* fixed_map_formula.py:44 _OPT_EXP_MAX_VAL *)
Definition OPT_EXP_MAX_VAL : Z := 0x800000000000000000000000000000000.

(* fixed_map_formula.py:47-175 _max_exp_array: entries 0..31 are None (commented out in the source) *)
Definition max_exp_array : list (option Z) := 
  repeat None 32 ++
  [ Some 0x1c35fedd14ffffffffffffffffffffffff;
    Some 0x1b0ce43b323fffffffffffffffffffffff;
    Some 0x19f0028ec1ffffffffffffffffffffffff;
    Some 0x18ded91f0e7fffffffffffffffffffffff;
    Some 0x17d8ec7f0417ffffffffffffffffffffff;
    Some 0x16ddc6556cdbffffffffffffffffffffff;
    Some 0x15ecf52776a1ffffffffffffffffffffff;
    Some 0x15060c256cb2ffffffffffffffffffffff;
    Some 0x1428a2f98d72ffffffffffffffffffffff;
    Some 0x13545598e5c23fffffffffffffffffffff;
    Some 0x1288c4161ce1dfffffffffffffffffffff;
    Some 0x11c592761c666fffffffffffffffffffff;
    Some 0x110a688680a757ffffffffffffffffffff;
    Some 0x1056f1b5bedf77ffffffffffffffffffff;
    Some 0xfaadceceeff8bffffffffffffffffffff;
    Some 0xf05dc6b27edadffffffffffffffffffff;
    Some 0xe67a5a25da4107fffffffffffffffffff;
    Some 0xdcff115b14eedffffffffffffffffffff;
    Some 0xd3e7a392431239fffffffffffffffffff;
    Some 0xcb2ff529eb71e4fffffffffffffffffff;
    Some 0xc2d415c3db974afffffffffffffffffff;
    Some 0xbad03e7d883f69bffffffffffffffffff;
    Some 0xb320d03b2c343d5ffffffffffffffffff;
    Some 0xabc25204e02828dffffffffffffffffff;
    Some 0xa4b16f74ee4bb207fffffffffffffffff;
    Some 0x9deaf736ac1f569ffffffffffffffffff;
    Some 0x976bd9952c7aa957fffffffffffffffff;
    Some 0x9131271922eaa606fffffffffffffffff;
    Some 0x8b380f3558668c46fffffffffffffffff;
    Some 0x857ddf0117efa215bffffffffffffffff;
    Some 0x7ffffffffffffffffffffffffffffffff;
    Some 0x7abbf6f6abb9d087fffffffffffffffff;
    Some 0x75af62cbac95f7dfa7fffffffffffffff;
    Some 0x70d7fb7452e187ac13fffffffffffffff;
    Some 0x6c3390ecc8af379295fffffffffffffff;
    Some 0x67c00a3b07ffc01fd6fffffffffffffff;
    Some 0x637b647c39cbb9d3d27ffffffffffffff;
    Some 0x5f63b1fc104dbd39587ffffffffffffff;
    Some 0x5b771955b36e12f7235ffffffffffffff;
    Some 0x57b3d49dda84556d6f6ffffffffffffff;
    Some 0x54183095b2c8ececf30ffffffffffffff;
    Some 0x50a28be635ca2b888f77fffffffffffff;
    Some 0x4d5156639708c9db33c3fffffffffffff;
    Some 0x4a23105873875bd52dfdfffffffffffff;
    Some 0x471649d87199aa990756fffffffffffff;
    Some 0x4429a21a029d4c1457cfbffffffffffff;
    Some 0x415bc6d6fb7dd71af2cb3ffffffffffff;
    Some 0x3eab73b3bbfe282243ce1ffffffffffff;
    Some 0x3c1771ac9fb6b4c18e229ffffffffffff;
    Some 0x399e96897690418f785257fffffffffff;
    Some 0x373fc456c53bb779bf0ea9fffffffffff;
    Some 0x34f9e8e490c48e67e6ab8bfffffffffff;
    Some 0x32cbfd4a7adc790560b3337ffffffffff;
    Some 0x30b50570f6e5d2acca94613ffffffffff;
    Some 0x2eb40f9f620fda6b56c2861ffffffffff;
    Some 0x2cc8340ecb0d0f520a6af58ffffffffff;
    Some 0x2af09481380a0a35cf1ba02ffffffffff;
    Some 0x292c5bdd3b92ec810287b1b3fffffffff;
    Some 0x277abdcdab07d5a77ac6d6b9fffffffff;
    Some 0x25daf6654b1eaa55fd64df5efffffffff;
    Some 0x244c49c648baa98192dce88b7ffffffff;
    Some 0x22ce03cd5619a311b2471268bffffffff;
    Some 0x215f77c045fbe885654a44a0fffffffff;
    Some 0x1ffffffffffffffffffffffffffffffff;
    Some 0x1eaefdbdaaee7421fc4d3ede5ffffffff;
    Some 0x1d6bd8b2eb257df7e8ca57b09bfffffff;
    Some 0x1c35fedd14b861eb0443f7f133fffffff;
    Some 0x1b0ce43b322bcde4a56e8ada5afffffff;
    Some 0x19f0028ec1fff007f5a195a39dfffffff;
    Some 0x18ded91f0e72ee74f49b15ba527ffffff;
    Some 0x17d8ec7f04136f4e5615fd41a63ffffff;
    Some 0x16ddc6556cdb84bdc8d12d22e6fffffff;
    Some 0x15ecf52776a1155b5bd8395814f7fffff;
    Some 0x15060c256cb23b3b3cc3754cf40ffffff;
    Some 0x1428a2f98d728ae223ddab715be3fffff;
    Some 0x13545598e5c23276ccf0ede68034fffff;
    Some 0x1288c4161ce1d6f54b7f61081194fffff;
    Some 0x11c592761c666aa641d5a01a40f17ffff;
    Some 0x110a688680a7530515f3e6e6cfdcdffff;
    Some 0x1056f1b5bedf75c6bcb2ce8aed428ffff;
    Some 0xfaadceceeff8a0890f3875f008277fff;
    Some 0xf05dc6b27edad306388a600f6ba0bfff;
    Some 0xe67a5a25da41063de1495d5b18cdbfff;
    Some 0xdcff115b14eedde6fc3aa5353f2e4fff;
    Some 0xd3e7a3924312399f9aae2e0f868f8fff;
    Some 0xcb2ff529eb71e41582cccd5a1ee26fff;
    Some 0xc2d415c3db974ab32a51840c0b67edff;
    Some 0xbad03e7d883f69ad5b0a186184e06bff;
    Some 0xb320d03b2c343d4829abd6075f0cc5ff;
    Some 0xabc25204e02828d73c6e80bcdb1a95bf;
    Some 0xa4b16f74ee4bb2040a1ec6c15fbbf2df;
    Some 0x9deaf736ac1f569deb1b5ae3f36c130f;
    Some 0x976bd9952c7aa957f5937d790ef65037;
    Some 0x9131271922eaa6064b73a22d0bd4f2bf;
    Some 0x8b380f3558668c46c91c49a2f8e967b9;
    Some 0x857ddf0117efa215952912839f6473e6 ].

(* fixed_map_formula.py:412-505 the factors of xi in _general_exp, in order *)
Definition general_exp_coefs : list Z := 
  [ 0x3442c4e6074a82f1797f72ac0000000;
    0x116b96f757c380fb287fd0e40000000;
    0x45ae5bdd5f0e03eca1ff4390000000;
    0xdefabf91302cd95b9ffda50000000;
    0x2529ca9832b22439efff9b8000000;
    0x54f1cf12bd04e516b6da88000000;
    0xa9e39e257a09ca2d6db51000000;
    0x12e066e7b839fa050c309000000;
    0x1e33d7d926c329a1ad1a800000;
    0x2bee513bdb4a6b19b5f800000;
    0x3a9316fa79b88eccf2a00000;
    0x48177ebe1fa812375200000;
    0x5263fe90242dcbacf00000;
    0x57e22099c030d94100000;
    0x57e22099c030d9410000;
    0x52b6b54569976310000;
    0x4985f67696bf748000;
    0x3dea12ea99e498000;
    0x31880f2214b6e000;
    0x25bcff56eb36000;
    0x1b722e10ab1000;
    0x1317c70077000;
    0xcba84aafa00;
    0x82573a0a00;
    0x5035ad900;
    0x2f881b00;
    0x1b29340;
    0xefc40;
    0x7fe0;
    0x420;
    0x21;
    0x1 ].

(* fixed_map_formula.py:508 *)
Definition general_exp_divisor : Z := 0x688589cc0e9505e2f2fee5580000000.

(* fixed_map_formula.py:526-557 (threshold, added value, divisor) of the eight if-statements of _optimal_log, in order *)
Definition optimal_log_hi : list (Z * Z * Z) := 
  [ (0xd3094c70f034de4b96ff7d5b6f99fcd8, 0x40000000000000000000000000000000, 0xd3094c70f034de4b96ff7d5b6f99fcd8);
    (0xa45af1e1f40c333b3de1db4dd55f29a7, 0x20000000000000000000000000000000, 0xa45af1e1f40c333b3de1db4dd55f29a7);
    (0x910b022db7ae67ce76b441c27035c6a1, 0x10000000000000000000000000000000, 0x910b022db7ae67ce76b441c27035c6a1);
    (0x88415abbe9a76bead8d00cf112e4d4a8, 0x8000000000000000000000000000000, 0x88415abbe9a76bead8d00cf112e4d4a8);
    (0x84102b00893f64c705e841d5d4064bd3, 0x4000000000000000000000000000000, 0x84102b00893f64c705e841d5d4064bd3);
    (0x8204055aaef1c8bd5c3259f4822735a2, 0x2000000000000000000000000000000, 0x8204055aaef1c8bd5c3259f4822735a2);
    (0x810100ab00222d861931c15e39b44e99, 0x1000000000000000000000000000000, 0x810100ab00222d861931c15e39b44e99);
    (0x808040155aabbbe9451521693554f733, 0x800000000000000000000000000000, 0x808040155aabbbe9451521693554f733) ].

(* fixed_map_formula.py:562-583 (minuend, divisor) of the eight series terms of _optimal_log, in order *)
Definition optimal_log_lo : list (Z * Z) := 
  [ (0x100000000000000000000000000000000, 0x100000000000000000000000000000000);
    (0xaaaaaaaaaaaaaaaaaaaaaaaaaaaaaaaa, 0x200000000000000000000000000000000);
    (0x99999999999999999999999999999999, 0x300000000000000000000000000000000);
    (0x92492492492492492492492492492492, 0x400000000000000000000000000000000);
    (0x8e38e38e38e38e38e38e38e38e38e38e, 0x500000000000000000000000000000000);
    (0x8ba2e8ba2e8ba2e8ba2e8ba2e8ba2e8b, 0x600000000000000000000000000000000);
    (0x89d89d89d89d89d89d89d89d89d89d89, 0x700000000000000000000000000000000);
    (0x88888888888888888888888888888888, 0x800000000000000000000000000000000) ].

(* fixed_map_formula.py:604 *)
Definition optimal_exp_mod : Z := 0x10000000000000000000000000000000.

(* fixed_map_formula.py:605-661 the factors of z in _optimal_exp, in order *)
Definition optimal_exp_coefs : list Z := 
  [ 0x10e1b3be415a0000;
    0x5a0913f6b1e0000;
    0x168244fdac78000;
    0x4807432bc18000;
    0xc0135dca04000;
    0x1b707b1cdc000;
    0x36e0f639b800;
    0x618fee9f800;
    0x9c197dcc00;
    0xe30dce400;
    0x12ebd1300;
    0x17499f00;
    0x1a9d480;
    0x1c6380;
    0x1c638;
    0x1ab8;
    0x17c;
    0x14;
    0x1 ].

(* fixed_map_formula.py:663 *)
Definition optimal_exp_divisor : Z := 0x21c3677c82b40000.

(* fixed_map_formula.py:665-685 (mask, multiplier, divisor) of the seven if-statements of _optimal_exp, in order *)
Definition optimal_exp_hi : list (Z * Z * Z) := 
  [ (0x10000000000000000000000000000000, 0x1c3d6a24ed82218787d624d3e5eba95f9, 0x18ebef9eac820ae8682b9793ac6d1e776);
    (0x20000000000000000000000000000000, 0x18ebef9eac820ae8682b9793ac6d1e778, 0x1368b2fc6f9609fe7aceb46aa619baed4);
    (0x40000000000000000000000000000000, 0x1368b2fc6f9609fe7aceb46aa619baed5, 0xbc5ab1b16779be3575bd8f0520a9f21f);
    (0x80000000000000000000000000000000, 0xbc5ab1b16779be3575bd8f0520a9f21e, 0x454aaa8efe072e7f6ddbab84b40a55c9);
    (0x100000000000000000000000000000000, 0x454aaa8efe072e7f6ddbab84b40a55c5, 0x960aadc109e7a3bf4578099615711ea);
    (0x200000000000000000000000000000000, 0x960aadc109e7a3bf4578099615711d7, 0x2bf84208204f5977f9a8cf01fdce3d);
    (0x400000000000000000000000000000000, 0x2bf84208204f5977f9a8cf01fdc307, 0x3c6ab775dd0b95b4cbee7e65d11) ].

