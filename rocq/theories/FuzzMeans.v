(** What it means to pass the fuzz test. *)
From Verif Require Import Ints Tactics SplMath ConstantPrice SwapCurve Codec Token Processor Api History
  LedgerSpec TotalSpec LedgerExamples Fuzz.

Lemma start_value : token_value fuzz_start (counted fuzz_start) = Val 1500000050000000000000.
Proof. vm_compute. reflexivity. Qed.
Lemma start_counted : balance fuzz_start 304 + balance fuzz_start 303 = 1000000000.
Proof. vm_compute. reflexivity. Qed.

Lemma kept_value w : value_kept w = true ->
  exists v, token_value w (1000000000 + total w 403 (ids 3000)) = Val v /\ 1500000050000000000000 <= v.
Proof.
  unfold value_kept. rewrite start_value. unfold counted. rewrite start_counted.
  destruct (token_value w (1000000000 + total w 403 (ids 3000))) as [v | |]; intros H; try discriminate.
  exists v. split; [reflexivity | apply Z.leb_le; exact H].
Qed.

Lemma kept_totals w : totals_kept w = true ->
  total w 201 (301 :: 4001 :: ids 1000) = 356000000000 /\ total w 202 (302 :: 4002 :: ids 2000) = 1068000000000.
Proof.
  unfold totals_kept. generalize (total w 201 (301 :: 4001 :: ids 1000)), (total w 202 (302 :: 4002 :: ids 2000)). intros x y H.
  apply andb_prop in H. destruct H as (H1 & H2). apply Z.eqb_eq in H1, H2. split; [exact H1 | exact H2].
Qed.

Definition cash_in_all (n : Z) : instr :=
  WithdrawAll [300; auth 300; 900; 403; 303; 301; 302; 4001; 4002; 303; TOKEN_PROGRAM_ID] n 0 0.
Lemma cashed_in w w' : cash_in w = Some w' ->
  if 0 <? balance w 303 then exec ex_env [900] w (cash_in_all (balance w 303)) = Ok w' else w' = w.
Proof.
  unfold cash_in. destruct (0 <? balance w 303); [| intros C; injection C as <-; reflexivity].
  replace (leave_none (balance w 303) (balance w 303)) with (balance w 303) by (unfold leave_none; destruct (_ =? _); reflexivity).
  fold (cash_in_all (balance w 303)). generalize (exec ex_env [900] w (cash_in_all (balance w 303))).
  intros [w1 | e] H; [injection H as <-; reflexivity | discriminate].
Qed.

Lemma test_passed l : fuzz_test l = Passed -> exists w w', fuzz_run fuzz_start l = Some w /\ value_kept w = true /\
  totals_kept w = true /\ cash_in (collect w) = Some w' /\ totals_kept w' = true.
Proof.
  unfold fuzz_test. generalize fuzz_start. intros w0. destruct (fuzz_run w0 l) as [w |]; [| discriminate].
  destruct (value_kept w) eqn:V; cbn [negb]; [| discriminate]. destruct (totals_kept w) eqn:T1; cbn [negb]; [| discriminate].
  destruct (cash_in (collect w)) as [w' |] eqn:C; [| discriminate]. destruct (totals_kept w') eqn:T2; [| discriminate].
  intros _. exists w, w'. split; [reflexivity |]. split; [exact V |]. split; [exact T1 |]. split; [exact C | exact T2].
Qed.

Lemma passed_means l : fuzz_test l = Passed -> exists w w' v,
  fuzz_run fuzz_start l = Some w /\
  token_value w (1000000000 + total w 403 (ids 3000)) = Val v /\ 1500000050000000000000 <= v /\
  total w 201 (301 :: 4001 :: ids 1000) = 356000000000 /\ total w 202 (302 :: 4002 :: ids 2000) = 1068000000000 /\
  (if 0 <? balance (collect w) 303
   then exec ex_env [900] (collect w)
     (WithdrawAll [300; auth 300; 900; 403; 303; 301; 302; 4001; 4002; 303; TOKEN_PROGRAM_ID] (balance (collect w) 303) 0 0) = Ok w'
   else w' = collect w) /\
  total w' 201 (301 :: 4001 :: ids 1000) = 356000000000 /\ total w' 202 (302 :: 4002 :: ids 2000) = 1068000000000.
Proof.
  intros H. destruct (test_passed l H) as (w & w' & E & V & T1 & C & T2).
  destruct (kept_value w V) as (v & Ev & Lv). destruct (kept_totals w T1) as (A1 & B1), (kept_totals w' T2) as (A2 & B2).
  apply cashed_in in C. exists w, w', v. split; [exact E |]. split; [exact Ev |]. split; [exact Lv |].
  split; [exact A1 |]. split; [exact B1 |]. split; [exact C |]. split; [exact A2 | exact B2].
Qed.
