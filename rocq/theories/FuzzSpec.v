(** What the fuzz test can be given, and what it starts from. *)
From Verif Require Import Ints ConstantPrice SwapCurve Token Spec LedgerSpec Fuzz.

Definition is_id (id : Z) : Prop := 0 <= id < 256.
Definition fuzz_ok (i : fuzz_instr) : Prop :=
  match i with
  | FSwap a b _ n m => is_id a /\ is_id b /\ is_u64 n /\ is_u64 m
  | FDepositAll a b p n x y | FWithdrawAll a b p n x y => is_id a /\ is_id b /\ is_id p /\ is_u64 n /\ is_u64 x /\ is_u64 y
  | FDepositSingle t _ p n m | FWithdrawSingle t _ p n m => is_id t /\ is_id p /\ is_u64 n /\ is_u64 m
  end.

(** The pool's holdings in terms of token A: at the start 10^11 + 10^7 * 3 * 10^11. *)
Definition pool_worth (w : world) : Z := pool_value fuzz_price (balance w 301) (balance w 302).

(** An account that the instruction takes tokens from has too few of them: a user's, or in a single
    withdrawal the vault. *)
Definition lacks_funds (w : world) (i : fuzz_instr) : Prop :=
  match i with
  | FSwap a b AtoB n _ => exists r, curve_swap (ConstantPrice fuzz_price) n (balance w 301) (balance w 302) AtoB fuzz_fees = Val r /\
      balance w (acc_a a) < source_amount_swapped r
  | FSwap a b BtoA n _ => exists r, curve_swap (ConstantPrice fuzz_price) n (balance w 302) (balance w 301) BtoA fuzz_fees = Val r /\
      balance w (acc_b b) < source_amount_swapped r
  | FDepositAll a b _ n _ _ => exists x y,
      pool_tokens_to_trading_tokens (ConstantPrice fuzz_price) (avoid_one n) (supply w 403) (balance w 301) (balance w 302) Ceiling = Val (x, y) /\
      (balance w (acc_a a) < x \/ balance w (acc_b b) < y)
  | FWithdrawAll _ _ p n _ _ => balance w (acc_p p) < n
  | FDepositSingle t d _ n _ => balance w (acc_on d t) < n
  | FWithdrawSingle _ d p n _ =>
      balance w (match d with AtoB => 301 | BtoA => 302 end) < n \/
      exists burnt, curve_withdraw_single (ConstantPrice fuzz_price) n (balance w 301) (balance w 302) (supply w 403) d fuzz_fees = Val burnt /\
        balance w (acc_p p) < burnt + Z.max 1 (burnt * 30 / 10000)
  end.
