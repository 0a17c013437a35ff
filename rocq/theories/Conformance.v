(** The expected values of the unit tests in /repo, evaluated on the model.
    These are tests of the transcription, not proofs of properties. *)
From Coq Require Import String.
From Verif Require Import Ints Fees DfsPrecise LinearCurve ConstantPrice ConstantProduct
  OffsetCurve SwapCurve Codec Token Processor Base58.

(** lib.rs 28, and the addresses of the token program and the system program *)
Example conf_program_id : base58 "TBCwReYDDw8SvwVVKJHgatzeXKrLHnaTPyDGwkUoBsq" = PROGRAM_ID.
Proof. vm_compute. reflexivity. Qed.
Example conf_token_program_id : base58 "TokenkegQfeZyiNwAJbNbGKPFXCWuBvf9Ss623VQ5DA" = TOKEN_PROGRAM_ID.
Proof. vm_compute. reflexivity. Qed.
Example conf_system_program_id : base58 "11111111111111111111111111111111" = SYSTEM_PROGRAM_ID.
Proof. vm_compute. reflexivity. Qed.

(** linear_price.rs 496-567, test swap_a_to_b_basic *)

Example conf_buy_1 : swap_a_to_b (mk_linear 1 2 150 3) 101 0 5000 = Val (101, 2).
Proof. vm_compute. reflexivity. Qed.

Example conf_buy_2 : swap_a_to_b (mk_linear 1 2 150 3) 103 101 4998 = Val (103, 2).
Proof. vm_compute. reflexivity. Qed.

Example conf_buy_3 : swap_a_to_b (mk_linear 1 200000000 150 3) 10100000000 0 500000000000 = Val (10100000000, 200000000).
Proof. vm_compute. reflexivity. Qed.

Example conf_buy_4 : swap_a_to_b (mk_linear 1 200000000 150 3) 590000000000 8160000000000 2000000000 = Val (590000000000, 2000000000).
Proof. vm_compute. reflexivity. Qed.

Example conf_buy_5 : swap_a_to_b (mk_linear 1 200000000 150 3) 1000000000000 8160000000000 2000000000 = Val (590000000000, 2000000000).
Proof. vm_compute. reflexivity. Qed.

Example conf_buy_6 : swap_a_to_b (mk_linear 5689549999968874 1000000000000 35915742315103 1) 7296939463019977479999 0 5000000000 = Val (7296939463019977479999, 199999997).
Proof. vm_compute. reflexivity. Qed.

Example conf_buy_7 : swap_a_to_b (mk_linear 5689549999968874 1000000000000 35915742315103 1) 7524521463008709920000 7296939463030000000000 4800000000 = Val (7524521463008709920000, 199999997).
Proof. vm_compute. reflexivity. Qed.

(** linear_price.rs 570-628, test swap_b_to_a_basic *)

Example conf_sell_1 : swap_b_to_a (mk_linear 1 2 150 3) 2 4998 101 = Val (2, 101).
Proof. vm_compute. reflexivity. Qed.

Example conf_sell_2 : swap_b_to_a (mk_linear 1 2 150 3) 2 4996 204 = Val (2, 103).
Proof. vm_compute. reflexivity. Qed.

Example conf_sell_3 : swap_b_to_a (mk_linear 1 200000000 150 3) 200000000 499800000000 10100000000 = Val (200000000, 10100000000).
Proof. vm_compute. reflexivity. Qed.

Example conf_sell_4 : swap_b_to_a (mk_linear 5689549999968874 1000000000000 35915742315103 1) 200000000 4800000000 7296939463019977480000 = Val (200000000, 7296939427104235162052).
Proof. vm_compute. reflexivity. Qed.

Example conf_sell_5 : swap_b_to_a (mk_linear 5689549999968874 1000000000000 35915742315103 1) 200000000 4600000000 14821460926038709920000 = Val (200000000, 7524521388911427798427).
Proof. vm_compute. reflexivity. Qed.

Example conf_sell_6 : swap_b_to_a (mk_linear 5689549999968874 1000000000000 35915742315103 1) 300000000 4800000000 7296939463019977480000 = Val (200000000, 7296939463019977480000).
Proof. vm_compute. reflexivity. Qed.

(** linear_price.rs 631-655, test swap_0_0_curve *)

Example conf_zero_1 : swap_a_to_b (mk_linear 1 2 0 1) 9 0 5000 = Val (9, 6).
Proof. vm_compute. reflexivity. Qed.

Example conf_zero_2 : swap_b_to_a (mk_linear 1 2 0 1) 6 494 9 = Val (6, 9).
Proof. vm_compute. reflexivity. Qed.

Example conf_zero_3 : swap_b_to_a (mk_linear 1 2 0 1) 11 494 9 = Val (6, 9).
Proof. vm_compute. reflexivity. Qed.

(** linear_price.rs 658-690, test swap_without_fees *)

Example conf_swap_1 : linear_swap (mk_linear 1 2 350 7) 101 0 5000 AtoB = Val (101, 2).
Proof. vm_compute. reflexivity. Qed.

Example conf_swap_2 : linear_swap (mk_linear 1 2 350 7) 2 4998 101 BtoA = Val (2, 101).
Proof. vm_compute. reflexivity. Qed.

(** linear_price.rs 722-791, test swap_large_price_max_a *)

Example conf_max_a_none : map (fun k => linear_swap (mk_linear 18446744073709551615 18446744073709551614 18446744073709551615 1) (2 ^ k) 0 100000000000000000000 AtoB) [0; 1; 2; 31; 32; 63; 64; 80; 95] = repeat Non 9.
Proof. vm_compute. reflexivity. Qed.

Example conf_max_a_97 : linear_swap (mk_linear 18446744073709551615 18446744073709551614 18446744073709551615 1) (2 ^ 97) 0 100000000000000000000 AtoB = Val (2 ^ 97, 4611686018).
Proof. vm_compute. reflexivity. Qed.

Example conf_max_a_128 : linear_swap (mk_linear 18446744073709551615 18446744073709551614 18446744073709551615 1) 340282366920938463463374607431768211455 0 100000000000000000000 AtoB = Val (340282366920938463463374607431768211455, 13503953894904916780).
Proof. vm_compute. reflexivity. Qed.

Example conf_max_a_sell : linear_swap (mk_linear 18446744073709551615 18446744073709551614 18446744073709551615 1) 1 0 (2 ^ 64) BtoA = Non.
Proof. vm_compute. reflexivity. Qed.

(** linear_price.rs 799-935, test swap_large_price_a_u32 *)

Example conf_u32_1 : linear_swap (mk_linear 18446744073709551615 18446744073709551614 4294967295 1) 18446744073709551615 0 100000000000000000000 AtoB = Val (18446744073709551615, 3144134275).
Proof. vm_compute. reflexivity. Qed.

Example conf_u32_2 : linear_swap (mk_linear 18446744073709551615 18446744073709551614 4294967295 1) 340282366920938463463374607431768211455 0 100000000000000000000 AtoB = Val (340282366920938463463374607431768211455, 26087635639488208246).
Proof. vm_compute. reflexivity. Qed.

Example conf_u32_3 : linear_swap (mk_linear 18446744073709551615 18446744073709551614 4294967295 1) 13043817819744104123 0 340282366920938463463374607431768211455 BtoA = Val (13043817819744104123, 255211775087270790878881086478269459899).
Proof. vm_compute. reflexivity. Qed.

Example conf_u32_4 : linear_swap (mk_linear 18446744073709551615 18446744073709551614 4294967295 1) 6521908914483738081 0 85070591833667672584493520953498751556 BtoA = Val (6521908914483738081, 63802943845173758276417067327404556546).
Proof. vm_compute. reflexivity. Qed.

Example conf_u32_5 : linear_swap (mk_linear 18446744073709551615 18446744073709551614 4294967295 1) 6521908918180041637 0 21267647988493914308076453626094195010 BtoA = Val (6521908918180041637, 21267647988493914308076453626094195010).
Proof. vm_compute. reflexivity. Qed.

Example conf_u32_6 : linear_swap (mk_linear 18446744073709551615 18446744073709551614 4294967295 1) 340282366920938463463374607431768211455 0 21267647988493914308076453626094195010 BtoA = Val (6521908918180041637, 21267647988493914308076453626094195010).
Proof. vm_compute. reflexivity. Qed.

(** linear_price.rs 942-1075, test swap_large_price_low_slope_u128 *)

Example conf_low_1 : linear_swap (mk_linear 1 1000000000000000000 0 1) 1 0 340282366920938463463374607431768211454 AtoB = Val (1, 1414213561).
Proof. vm_compute. reflexivity. Qed.

Example conf_low_2 : linear_swap (mk_linear 1 1000000000000000000 0 1) 340282366920938463463374607431768211455 0 340282366920938463463374607431768211454 AtoB = Val (340282366920938463463374607431768211455, 26087635642281361408000000000).
Proof. vm_compute. reflexivity. Qed.

Example conf_low_3 : linear_swap (mk_linear 1 1000000000000000000 0 1) 26087635642281361408000000000 0 340282366920938463463374607431768211455 BtoA = Val (26087635642281361408000000000, 340282366920938463426481119284349108223).
Proof. vm_compute. reflexivity. Qed.

Example conf_low_4 : linear_swap (mk_linear 1 1000000000000000000 0 1) 13043817821140680704000000000 0 340282366920938463463374607431768211455 BtoA = Val (13043817821140680704000000000, 255211775133339314018502795692393627647).
Proof. vm_compute. reflexivity. Qed.

Example conf_low_5 : linear_swap (mk_linear 1 1000000000000000000 0 1) 6521908914865307648000000000 0 85070591787599149444871811739374583808 BtoA = Val (6521908914865307648000000000, 63802943840699362083653858804530937856).
Proof. vm_compute. reflexivity. Qed.

Example conf_low_6 : linear_swap (mk_linear 1 1000000000000000000 0 1) 6521908914865307648000000000 0 21267647946899787361217952934843645952 BtoA = Val (6521908914865307648000000000, 21267647946899787361217952934843645952).
Proof. vm_compute. reflexivity. Qed.

Example conf_low_7 : linear_swap (mk_linear 1 1000000000000000000 0 1) 340282366920938463463374607431768211455 0 21267647946899787361217952934843645952 BtoA = Val (6521908914865307648000000000, 21267647946899787361217952934843645952).
Proof. vm_compute. reflexivity. Qed.

Example conf_low_8 : linear_swap (mk_linear 1 1000000000000000000 0 1) 18446744073709551615 0 340282366920938463463374607431768211454 AtoB = Val (18446744073709551615, 6074000998000000000).
Proof. vm_compute. reflexivity. Qed.

Example conf_low_9 : linear_swap (mk_linear 1 1000000000000000000 0 1) 6074000998000000000 0 18446744073709551615 BtoA = Val (6074000998000000000, 18446744073709551613).
Proof. vm_compute. reflexivity. Qed.

Example conf_low_10 : linear_swap (mk_linear 1 1000000000000000000 0 1) 3037000499000000000 0 18446744073709551615 BtoA = Val (3037000499000000000, 13835058052172426114).
Proof. vm_compute. reflexivity. Qed.

Example conf_low_11 : linear_swap (mk_linear 1 1000000000000000000 0 1) 1518500250500000000 0 4611686021537125501 BtoA = Val (1518500250500000000, 3458764514634343874).
Proof. vm_compute. reflexivity. Qed.

Example conf_low_12 : linear_swap (mk_linear 1 1000000000000000000 0 1) 1518500252000000000 0 1152921506902781627 BtoA = Val (1518500252000000000, 1152921506902781627).
Proof. vm_compute. reflexivity. Qed.

(** dfs_precise_number.rs 329-342, 479-640: conversions, square roots, floor, ceiling *)

Example conf_imprecise_0 : (let? x := dfs_new 0 in let? f := dfs_floor x in dfs_to_imprecise f) = Val 0.
Proof. vm_compute. reflexivity. Qed.

Example conf_imprecise_1 : (let? x := dfs_new 340282366920938463463374607431768211455 in dfs_to_imprecise x) = Val 340282366920938463463374607431768211455.
Proof. vm_compute. reflexivity. Qed.

Example conf_imprecise_2 : (let? x := dfs_new 340282366920938463463374607431768211455 in let? y := dfs_add x x in dfs_to_imprecise y) = Non.
Proof. vm_compute. reflexivity. Qed.

Example conf_sqrt_4e18 : map (dfs_sqrt_u64 4) [false; true] = [Val 2000000000; Val 2000000000].
Proof. vm_compute. reflexivity. Qed.

Example conf_sqrt_3e18 : map (dfs_sqrt_u64 3) [false; true] = [Val 1732050807; Val 1732050808].
Proof. vm_compute. reflexivity. Qed.

Example conf_sqrt_400 : map (dfs_sqrt_u64 (400 * ONE)) [false; true] = [Val (20 * ONE); Val (20 * ONE)].
Proof. vm_compute. reflexivity. Qed.

Example conf_sqrt_300 : (let? lo := dfs_sqrt_u64 (300 * ONE) false in
   let? hi := dfs_sqrt_u64 (300 * ONE) true in
   let e := 17320508075680000000 in
   Val [dfs_almost_eq lo e (ONE / 10000000); dfs_almost_eq hi e (ONE / 10000000); lo <? e; e <? hi]) = Val [true; true; true; true].
Proof. vm_compute. reflexivity. Qed.

Example conf_floor : dfs_floor (2 * ONE + 1) = Val (2 * ONE).
Proof. vm_compute. reflexivity. Qed.

Example conf_ceiling : dfs_ceiling (2 * ONE - 1) = Val (2 * ONE).
Proof. vm_compute. reflexivity. Qed.

(** constant_price.rs 271-370 *)

Example conf_price_1 : map (cprice_swap 1 100) [AtoB; BtoA] = [Val (100, 100); Val (100, 100)].
Proof. vm_compute. reflexivity. Qed.

Example conf_price_2 : map (fun s => cprice_swap 1123513 s AtoB) [1123512; 1; 1123513] = [Non; Non; Val (1123513, 1)].
Proof. vm_compute. reflexivity. Qed.

Example conf_price_3 : map (fun s => cprice_swap 18446744073709551615 s AtoB) [18446744073709551614; 1; 0; 18446744073709551615] = [Non; Non; Non; Val (18446744073709551615, 1)].
Proof. vm_compute. reflexivity. Qed.

(** constant_product.rs 318-418 *)

Example conf_ratio : map (fun '(a, b, d, s) => ratio_pool_tokens_to_trading_tokens d s a b Ceiling)
    [(2, 49, 5, 10); (100, 202, 5, 101); (5, 501, 2, 10)] = [Val (1, 25); Val (5, 10); Val (1, 101)].
Proof. vm_compute. reflexivity. Qed.

Example conf_ratio_fail : map (fun '(a, b) => ratio_pool_tokens_to_trading_tokens 5 10 a b Floor) [(340282366920938463463374607431768211455, 0); (0, 340282366920938463463374607431768211455)] = [Non; Non].
Proof. vm_compute. reflexivity. Qed.

Example conf_cprod : cprod_swap 10 70000000000 4000000 :: map (fun '(s, a, b) => cprod_swap s a b)
    [(10, 4000000, 70000000000); (20, 29980, 10000); (19, 29980, 10000); (18, 29980, 10000); (10, 20000, 30000); (10, 19991, 30000); (10, 19990, 30000); (100, 60000, 30000); (99, 60000, 30000); (98, 60000, 30000)] = Non ::
    [Val (10, 174999); Val (18, 6); Val (18, 6); Val (18, 6); Val (10, 14); Val (10, 14); Val (10, 15); Val (99, 49); Val (99, 49); Val (97, 48)].
Proof. vm_compute. reflexivity. Qed.

(** offset.rs 217-307 *)

Example conf_offset_0 : map (offset_swap 0 100 1000 50000) [AtoB; BtoA] = [Val (100, 4545); Val (100, 4545)].
Proof. vm_compute. reflexivity. Qed.

Example conf_offset_1 : map (offset_swap 1000000 100 1000000 0) [AtoB; BtoA] = [Val (100, 99); Non].
Proof. vm_compute. reflexivity. Qed.

Example conf_offset_2 : offset_swap 18446744073709551615 1000 10000000 1000 AtoB = Val (1000, 1844489958375117).
Proof. vm_compute. reflexivity. Qed.

Example conf_offset_3 : offset_swap 18446744073709551615 18446744073709551615 10000000 1000 BtoA = Val (18373104376818475561, 499).
Proof. vm_compute. reflexivity. Qed.

(** base.rs 295-411: swaps with fees *)

Example conf_trade_fee : curve_swap ConstantProduct 100 1000 50000 AtoB (mk_fees 1 100 0 0 0 0 0 0) = Val (mk_swap_result 1100 45496 100 4504 1 0).
Proof. vm_compute. reflexivity. Qed.

Example conf_owner_fee : curve_swap ConstantProduct 100 1000 50000 AtoB (mk_fees 0 0 1 100 0 0 0 0) = Val (mk_swap_result 1100 45496 100 4504 0 1).
Proof. vm_compute. reflexivity. Qed.

Example conf_no_fee : curve_swap ConstantProduct 100 1000 50000 AtoB (mk_fees 0 0 0 0 0 0 0 0) = Val (mk_swap_result 1100 45455 100 4545 0 0).
Proof. vm_compute. reflexivity. Qed.

(** linear_price.rs 1084-1210, test swap_large_price_low_slope_u64: the cases that are not above *)
Example conf_more_1 : linear_swap (mk_linear 1 1000000000000000000 0 1) 340282366920938463463374607431768211455 0 1152921506902781627 BtoA = Val (1518500252000000000, 1152921506902781627).
Proof. vm_compute. reflexivity. Qed.

(** linear_price.rs 1218-1330, test swap_large_initial_a_num_and_den *)
Example conf_more_2 : linear_swap (mk_linear 18446744073709551615 18446744073709551614 18446744073709551614 18446744073709551615) 18446744073709551615 0 100000000000000000000 AtoB = Val (18446744073709551615, 6074000997).
Proof. vm_compute. reflexivity. Qed.

Example conf_more_3 : linear_swap (mk_linear 18446744073709551615 18446744073709551614 18446744073709551614 18446744073709551615) 3037000499 0 18446744073709551615 BtoA = Val (3037000499, 13835058049135425613).
Proof. vm_compute. reflexivity. Qed.

Example conf_more_4 : linear_swap (mk_linear 18446744073709551615 18446744073709551614 18446744073709551614 18446744073709551615) 1518500250 0 4611686021537125501 BtoA = Val (1518500250, 3458764513875093749).
Proof. vm_compute. reflexivity. Qed.

Example conf_more_5 : linear_swap (mk_linear 18446744073709551615 18446744073709551614 18446744073709551614 18446744073709551615) 1518500252 0 1152921507662031752 BtoA = Val (1518500251, 1152921507662031752).
Proof. vm_compute. reflexivity. Qed.

Example conf_more_6 : linear_swap (mk_linear 18446744073709551615 18446744073709551614 18446744073709551614 18446744073709551615) 340282366920938463463374607431768211455 0 1152921507662031752 BtoA = Val (1518500251, 1152921507662031752).
Proof. vm_compute. reflexivity. Qed.

(** linear_price.rs 1337-1394, test swap_maximum_slope *)
Example conf_more_7 : map (fun k => linear_swap (mk_linear 18446744073709551615 1 18446744073709551614 18446744073709551615) (2 ^ k) 0 100000000000000000000 AtoB) (map Z.of_nat (seq 0 63)) = repeat Non 63.
Proof. vm_compute. reflexivity. Qed.

Example conf_more_8 : linear_swap (mk_linear 18446744073709551615 1 18446744073709551614 18446744073709551615) 18446744073709551615 0 100000000000000000000 AtoB = Val (18446744073709551615, 1).
Proof. vm_compute. reflexivity. Qed.

Example conf_more_9 : linear_swap (mk_linear 18446744073709551615 1 18446744073709551614 18446744073709551615) 340282366920938463463374607431768211455 0 100000000000000000000 AtoB = Val (340282366920938463463374607431768211455, 6074000998).
Proof. vm_compute. reflexivity. Qed.

(** linear_price.rs 1402-1509, test swap_very_large_slope *)
Example conf_more_10 : linear_swap (mk_linear 576460752303423488 1 18446744073709551614 18446744073709551615) 18446744073709551615 0 100000000000000000000 AtoB = Val (18446744073709551615, 7).
Proof. vm_compute. reflexivity. Qed.

Example conf_more_11 : linear_swap (mk_linear 576460752303423488 1 18446744073709551614 18446744073709551615) 3 0 18446744073709551615 BtoA = Val (3, 11240984669916758010).
Proof. vm_compute. reflexivity. Qed.

Example conf_more_12 : linear_swap (mk_linear 576460752303423488 1 18446744073709551614 18446744073709551615) 2 0 7205759403792793605 BtoA = Val (2, 2594073385365405697).
Proof. vm_compute. reflexivity. Qed.

Example conf_more_13 : linear_swap (mk_linear 576460752303423488 1 18446744073709551614 18446744073709551615) 3 0 2594073385365405699 BtoA = Val (3, 2305843009213693954).
Proof. vm_compute. reflexivity. Qed.

Example conf_more_14 : linear_swap (mk_linear 576460752303423488 1 18446744073709551614 18446744073709551615) 340282366920938463463374607431768211455 0 2594073385365405699 BtoA = Val (3, 2594073385365405699).
Proof. vm_compute. reflexivity. Qed.

(** linear_price.rs 1513-1567, test swap_is_slope_valid *)
Example conf_more_15 : map (fun '(sn, sd, an, ad) => match linear_validate (mk_linear sn sd an ad) with Ok _ => true | Err _ => false end)
  [(0, 1000000000001, 1, 1); (1, 0, 1, 1); (1, 1000000000000000001, 1, 1); (1, 1000000000000000000, 1, 1);
   (37, 1400000000000000000, 1, 1); (1, 1000000000000, 1, 0)] = [false; false; false; true; true; false].
Proof. vm_compute. reflexivity. Qed.

(** linear_price.rs 1570-1799, test test_taki *)
Example conf_more_16 : map (fun x => linear_swap (mk_linear 37 1400000000000000000 7 2) x 0 1285000000000000 AtoB) [1; 1000; 1000000; 10000000; 100000000] = repeat Non 5.
Proof. vm_compute. reflexivity. Qed.

Example conf_more_17 : linear_swap (mk_linear 37 1400000000000000000 7 2) 133000000 0 1285000000000000 AtoB = Val (133000000, 37837837).
Proof. vm_compute. reflexivity. Qed.

Example conf_more_18 : linear_swap (mk_linear 37 1400000000000000000 7 2) 1000000000 0 1285000000000000 AtoB = Val (1000000000, 264864864).
Proof. vm_compute. reflexivity. Qed.

Example conf_more_19 : linear_swap (mk_linear 37 1400000000000000000 7 2) 1000000000000 0 1285000000000000 AtoB = Val (1000000000000, 285713513513).
Proof. vm_compute. reflexivity. Qed.

Example conf_more_20 : linear_swap (mk_linear 37 1400000000000000000 7 2) 1000000000000000 0 1285000000000000 AtoB = Val (1000000000000000, 285406724324324).
Proof. vm_compute. reflexivity. Qed.

Example conf_more_21 : linear_swap (mk_linear 37 1400000000000000000 7 2) 1000000000000000000 0 1285000000000000000000 AtoB = Val (1000000000000000000, 172877287081081081).
Proof. vm_compute. reflexivity. Qed.

Example conf_more_22 : linear_swap (mk_linear 37 1400000000000000000 7 2) 72877287081081081 0 1000000000000000000 BtoA = Val (72877287081081081, 517857142392277990).
Proof. vm_compute. reflexivity. Qed.

Example conf_more_23 : linear_swap (mk_linear 37 1400000000000000000 7 2) 99900000000000000 0 482142857607722010 BtoA = Val (99900000000000000, 481792725048334364).
Proof. vm_compute. reflexivity. Qed.

Example conf_more_24 : linear_swap (mk_linear 37 1400000000000000000 7 2) 99900000000000 0 350132559387646 BtoA = Val (99900000000000, 349782048444306).
Proof. vm_compute. reflexivity. Qed.

Example conf_more_25 : linear_swap (mk_linear 37 1400000000000000000 7 2) 99000000000 0 350510943340 BtoA = Val (99000000000, 346462294672).
Proof. vm_compute. reflexivity. Qed.

Example conf_more_26 : linear_swap (mk_linear 37 1400000000000000000 7 2) 1000000000 0 4048648668 BtoA = Val (1000000000, 3443243262).
Proof. vm_compute. reflexivity. Qed.

Example conf_more_27 : linear_swap (mk_linear 37 1400000000000000000 7 2) 100000000000 0 4048648668 BtoA = Val (1172972973, 4048648668).
Proof. vm_compute. reflexivity. Qed.

(** linear_price.rs 2050-2099, test solve_quadratic_positive_root_cases *)
Example conf_more_28 : map (fun '(kn, kd, en, ed, v) =>
    let? kn := dfs_new kn in let? kd := dfs_new kd in let? en := dfs_new en in let? ed := dfs_new ed in let? v := dfs_new v in
    let? x := solve_quadratic_positive_root kn kd en ed v true in dfs_to_imprecise x)
  [(1, 1, 0, 1, 25); (5, 5, 10, 2, 0); (3, 3, 28, 7, 5)] = [Val 5; Val 0; Val 1].
Proof. vm_compute. reflexivity. Qed.

(** stable.rs 362-396 *)
Example conf_more_29 : new_pool_supply (Stable 1) = INITIAL_SWAP_POOL_AMOUNT.
Proof. vm_compute. reflexivity. Qed.

Example conf_more_30 : map (fun '(a, b, d, s) => pool_tokens_to_trading_tokens (Stable 1) d s a b Ceiling)
  [(2, 49, 5, 10); (100, 202, 5, 101); (5, 501, 2, 10)] = [Val (1, 25); Val (5, 10); Val (1, 101)].
Proof. vm_compute. reflexivity. Qed.

(** constraints.rs 107-180, test validate_fees *)
Example conf_more_31 : (let sc := mk_constraints None [curve_tag ConstantProduct] (mk_fees 1 4 2 5 4 10 10 100) in
   (map (constraints_validate_fees sc)
      [mk_fees 1 4 2 5 4 10 10 100; mk_fees 0 4 2 5 4 10 10 100; mk_fees 1 3 2 5 4 10 10 100; mk_fees 1 5 2 5 4 10 10 100;
       mk_fees 1 4 1 5 4 10 10 100; mk_fees 1 4 2 4 4 10 10 100],
    map (validate_curve_type sc) [ConstantProduct; ConstantPrice 1]))
  = (Ok tt :: repeat (Err (ESwap InvalidFee)) 5, [Ok tt; Err (ESwap UnsupportedCurveType)]).
Proof. vm_compute. reflexivity. Qed.

(** state.rs 258-385, fees.rs 190-228, base.rs 274-292 and the pack tests of the curves: the bytes, written out *)Definition le64 (x : Z) : list Z := map (fun i => x / 256 ^ Z.of_nat i mod 256) (seq 0 8).
Definition key_of (b : Z) : Z := fold_right (fun _ k => b + 256 * k) 0 (seq 0 32).
Definition test_pool : swap_state :=
  mk_swap_state true 255 (key_of 1) (key_of 2) (key_of 3) (key_of 4) (key_of 5) (key_of 6) (key_of 7)
                (mk_fees 1 4 3 10 2 7 5 20) (Stable 1).
Definition test_bytes : list Z :=
  [1; 255] ++ flat_map (fun b => repeat b 32) [1; 2; 3; 4; 5; 6; 7] ++ flat_map le64 [1; 4; 3; 10; 2; 7; 5; 20]
  ++ [2] ++ le64 1 ++ repeat 0 24.
Example conf_pack_v1 : pack_v1_into test_pool (repeat 0 323) = test_bytes /\ unpack_v1_from test_bytes = Ok test_pool.
Proof. vm_compute. split; reflexivity. Qed.
Example conf_pack_version : swap_pack test_pool (repeat 0 324) = Ok (1 :: test_bytes) /\ swap_unpack (1 :: test_bytes) = Ok test_pool.
Proof. vm_compute. split; reflexivity. Qed.
Example conf_unpack_zero :
  unpack_v1_from (repeat 0 323) = Ok (mk_swap_state false 0 0 0 0 0 0 0 0 (mk_fees 0 0 0 0 0 0 0 0) ConstantProduct).
Proof. vm_compute. reflexivity. Qed.
Example conf_pack_fees : pack_fees (mk_fees 1 4 2 5 4 10 7 100) = flat_map le64 [1; 4; 2; 5; 4; 10; 7; 100] /\
  unpack_fees (flat_map le64 [1; 4; 2; 5; 4; 10; 7; 100]) = mk_fees 1 4 2 5 4 10 7 100.
Proof. vm_compute. split; reflexivity. Qed.
Example conf_pack_curves :
  map (fun c => pack_curve c (repeat 0 33))
    [ConstantProduct; ConstantPrice 1251258; Stable 1; Offset 10;
     LinearPrice (mk_linear 18446744073709551615 18446744073709551614 0 4294967295)]
  = [repeat 0 33; [1] ++ le64 1251258 ++ repeat 0 24; [2] ++ le64 1 ++ repeat 0 24; [3] ++ le64 10 ++ repeat 0 24;
     [30] ++ flat_map le64 [18446744073709551615; 18446744073709551614; 0; 4294967295]].
Proof. vm_compute. reflexivity. Qed.
Example conf_unpack_curves :
  map unpack_curve
    [repeat 0 33; [1] ++ le64 1251258 ++ repeat 0 24; [2] ++ le64 1 ++ repeat 0 24; [3] ++ le64 10 ++ repeat 0 24;
     [30] ++ flat_map le64 [18446744073709551615; 18446744073709551614; 0; 4294967295]]
  = map Ok [ConstantProduct; ConstantPrice 1251258; Stable 1; Offset 10;
     LinearPrice (mk_linear 18446744073709551615 18446744073709551614 0 4294967295)].
Proof. vm_compute. reflexivity. Qed.
