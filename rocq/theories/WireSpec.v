(** The wire format of the instructions and the accounts they may write to, as a
    client has to know them. *)
From Verif Require Import Ints Fees LinearCurve SwapCurve Codec Token Processor Api CallSpec.

Definition le64 (x : Z) : list Z :=
  [x mod 256; x / 2 ^ 8 mod 256; x / 2 ^ 16 mod 256; x / 2 ^ 24 mod 256;
   x / 2 ^ 32 mod 256; x / 2 ^ 40 mod 256; x / 2 ^ 48 mod 256; x / 2 ^ 56 mod 256].

(** Instruction data: an 8-byte tag and the arguments. *)
Definition wire (i : instr) : list Z :=
  match i with
  | InitConstantPrice _ f p =>
      [125; 94; 220; 25; 84; 243; 56; 187] ++
      le64 (trade_fee_num f) ++ le64 (trade_fee_den f) ++
      le64 (owner_trade_fee_num f) ++ le64 (owner_trade_fee_den f) ++
      le64 (owner_withdraw_fee_num f) ++ le64 (owner_withdraw_fee_den f) ++
      le64 (host_fee_num f) ++ le64 (host_fee_den f) ++ le64 p
  | InitLinearPrice _ sn sd pn pd =>
      [216; 58; 55; 98; 142; 240; 233; 224] ++ le64 sn ++ le64 sd ++ le64 pn ++ le64 pd
  | Swap _ ain mout => [248; 198; 158; 145; 225; 117; 135; 200] ++ le64 ain ++ le64 mout
  | DepositAll _ n a b => [32; 95; 69; 60; 75; 79; 205; 238] ++ le64 n ++ le64 a ++ le64 b
  | WithdrawAll _ n a b => [189; 254; 156; 174; 210; 9; 164; 216] ++ le64 n ++ le64 a ++ le64 b
  | DepositSingle _ n m => [99; 207; 4; 42; 88; 157; 45; 55] ++ le64 n ++ le64 m
  | WithdrawSingle _ n m => [243; 192; 70; 139; 209; 156; 8; 139] ++ le64 n ++ le64 m
  end.

(** The accounts a client has to mark writable. *)
Definition must_write (i : instr) : list Z :=
  match i with
  | InitConstantPrice (pool :: _ :: _ :: _ :: mint :: _ :: dest :: _) _ _
  | InitLinearPrice (pool :: _ :: _ :: _ :: mint :: _ :: dest :: _) _ _ _ _ => [pool; mint; dest]
  | Swap (_ :: _ :: _ :: source :: vault_in :: vault_out :: dest :: mint :: fee :: _) _ _ =>
      [source; vault_in; vault_out; dest; mint; fee]
  | DepositAll (_ :: _ :: _ :: source_a :: source_b :: vault_a :: vault_b :: mint :: dest :: _) _ _ _ =>
      [source_a; source_b; vault_a; vault_b; mint; dest]
  | WithdrawAll (_ :: _ :: _ :: mint :: source :: vault_a :: vault_b :: dest_a :: dest_b :: fee :: _) _ _ _ =>
      [mint; source; vault_a; vault_b; dest_a; dest_b; fee]
  | DepositSingle (_ :: _ :: _ :: source :: vault_a :: vault_b :: mint :: dest :: _) _ _ =>
      [source; vault_a; vault_b; mint; dest]
  | WithdrawSingle (_ :: _ :: _ :: mint :: source :: vault_a :: vault_b :: dest :: fee :: _) _ _ =>
      [mint; source; vault_a; vault_b; dest; fee]
  | _ => []
  end.

(** The accounts a call of the token program asks write access to. *)
Definition call_writes (c : call) : list Z :=
  match c with
  | CTransfer source dest _ _ => [source; dest]
  | CMint mint dest _ _ => [mint; dest]
  | CBurn source mint _ _ => [source; mint]
  end.
