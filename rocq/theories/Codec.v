(** Byte encodings: curve/fees.rs 136-184, the [Pack] implementations of the
    curves, curve/base.rs 194-268 and state.rs.

    A byte is a [Z] in [0,256); a byte slice is a list.  [pack_*] functions take
    the previous contents of the slice they overwrite, because curves leave some
    bytes of their slot untouched. *)
From Verif Require Import Ints Fees LinearCurve SwapCurve.

(** [to_le_bytes] for an [n]-byte integer *)
Fixpoint to_le (n : nat) (x : Z) : list Z :=
  match n with
  | O => []
  | S n' => x mod 256 :: to_le n' (x / 256)
  end.

(** [from_le_bytes] *)
Fixpoint from_le (l : list Z) : Z :=
  match l with
  | [] => 0
  | b :: l' => b + 256 * from_le l'
  end.

(** [array_ref![l, o, n]] on a slice known to be long enough *)
Definition slice (o n : nat) (l : list Z) : list Z := firstn n (skipn o l).

(** Overwrite the first bytes of a slice. *)
Definition overwrite (new old : list Z) : list Z := new ++ skipn (length new) old.

(** A public key is a 256-bit number, stored as 32 bytes. *)
Definition is_pubkey (k : Z) : Prop := 0 <= k < 2 ^ 256.
Definition pack_key (k : Z) : list Z := to_le 32 k.

(** fees.rs 138-159; fees.rs 161-183 *)
Definition pack_fees (f : fees) : list Z :=
  to_le 8 (trade_fee_num f) ++ to_le 8 (trade_fee_den f) ++
  to_le 8 (owner_trade_fee_num f) ++ to_le 8 (owner_trade_fee_den f) ++
  to_le 8 (owner_withdraw_fee_num f) ++ to_le 8 (owner_withdraw_fee_den f) ++
  to_le 8 (host_fee_num f) ++ to_le 8 (host_fee_den f).

Definition unpack_fees (l : list Z) : fees :=
  mk_fees (from_le (slice 0 8 l)) (from_le (slice 8 8 l))
          (from_le (slice 16 8 l)) (from_le (slice 24 8 l))
          (from_le (slice 32 8 l)) (from_le (slice 40 8 l))
          (from_le (slice 48 8 l)) (from_le (slice 56 8 l)).

(** base.rs 28-42: discriminants *)
Definition curve_tag (c : curve) : Z :=
  match c with
  | ConstantProduct => 0
  | ConstantPrice _ => 1
  | Stable _ => 2
  | Offset _ => 3
  | LinearPrice _ => 30
  end.

(** DynPack::pack_into_slice of each curve: the bytes written.
    constant_product.rs 268-270 (none); constant_price.rs, offset.rs, stable.rs
    (8 bytes); linear_price.rs 475-486 (32 bytes) *)
Definition pack_calculator (c : curve) : list Z :=
  match c with
  | ConstantProduct => []
  | ConstantPrice x | Stable x | Offset x => to_le 8 x
  | LinearPrice l =>
      to_le 8 (slope_num l) ++ to_le 8 (slope_den l) ++
      to_le 8 (price_num l) ++ to_le 8 (price_den l)
  end.

(** base.rs 238-243; [old] is the 33-byte slot *)
Definition pack_curve (c : curve) (old : list Z) : list Z :=
  overwrite (curve_tag c :: pack_calculator c) old.

(** base.rs 214-236, 255-268; linear_price.rs 459-472.  [l] has 33 bytes. *)
Definition unpack_curve (l : list Z) : result curve :=
  let calc := slice 1 32 l in
  match nth 0 l 0 with
  | 0 => Ok ConstantProduct
  | 1 => Ok (ConstantPrice (from_le (slice 0 8 calc)))
  | 2 => Ok (Stable (from_le (slice 0 8 calc)))
  | 3 => Ok (Offset (from_le (slice 0 8 calc)))
  | 30 => Ok (LinearPrice (mk_linear (from_le (slice 0 8 calc)) (from_le (slice 8 8 calc))
                                     (from_le (slice 16 8 calc)) (from_le (slice 24 8 calc))))
  | _ => Err EInvalidAccountData
  end.

(** base.rs 194-202: [PartialEq] by comparing packed zeroed buffers *)
Fixpoint bytes_eqb (a b : list Z) : bool :=
  match a, b with
  | [], [] => true
  | x :: a', y :: b' => (x =? y) && bytes_eqb a' b'
  | _, _ => false
  end.
Definition curve_eqb (c1 c2 : curve) : bool :=
  bytes_eqb (pack_curve c1 (repeat 0 33)) (pack_curve c2 (repeat 0 33)).

(** state.rs 91-127 *)
Record swap_state : Type := mk_swap_state {
  st_is_initialized : bool;
  st_bump_seed : Z;
  st_token_program_id : Z;
  st_token_a : Z;
  st_token_b : Z;
  st_pool_mint : Z;
  st_token_a_mint : Z;
  st_token_b_mint : Z;
  st_pool_fee_account : Z;
  st_fees : fees;
  st_curve : curve
}.

(** state.rs 183, 54 *)
Definition SWAP_V1_LEN : nat := 323.
Definition LATEST_LEN : nat := 324.

(** state.rs 185-211; [old] is the 323-byte slice written to *)
Definition pack_v1_into (s : swap_state) (old : list Z) : list Z :=
  [if st_is_initialized s then 1 else 0] ++ [st_bump_seed s] ++
  pack_key (st_token_program_id s) ++ pack_key (st_token_a s) ++ pack_key (st_token_b s) ++
  pack_key (st_pool_mint s) ++ pack_key (st_token_a_mint s) ++ pack_key (st_token_b_mint s) ++
  pack_key (st_pool_fee_account s) ++ pack_fees (st_fees s) ++
  pack_curve (st_curve s) (slice 290 33 old).

(** state.rs 214-247 on a slice of 323 bytes *)
Definition unpack_v1_from (l : list Z) : result swap_state :=
  do! init :=
    match nth 0 l 0 with
    | 0 => Ok false
    | 1 => Ok true
    | _ => Err EInvalidAccountData
    end in
  do! c := unpack_curve (slice 290 33 l) in
  Ok (mk_swap_state init (nth 1 l 0)
        (from_le (slice 2 32 l)) (from_le (slice 34 32 l)) (from_le (slice 66 32 l))
        (from_le (slice 98 32 l)) (from_le (slice 130 32 l)) (from_le (slice 162 32 l))
        (from_le (slice 194 32 l)) (unpack_fees (slice 226 64 l)) c).

(** state.rs 57-64 with solana_program's [Pack::pack] length check; the index
    [dst[0]] panics on an empty slice *)
Definition swap_pack (s : swap_state) (dst : list Z) : result (list Z) :=
  match dst with
  | [] => Err EPanic
  | _ :: rest =>
      if Nat.eqb (length rest) SWAP_V1_LEN then Ok (1 :: pack_v1_into s rest)
      else Err EInvalidAccountData
  end.

(** state.rs 68-76 with solana_program's [Pack::unpack]: length check, then
    the initialised flag *)
Definition swap_unpack (input : list Z) : result swap_state :=
  match input with
  | [] => Err EInvalidAccountData
  | version :: rest =>
      if version =? 1 then
        if Nat.eqb (length rest) SWAP_V1_LEN then
          do! s := unpack_v1_from rest in
          if st_is_initialized s then Ok s else Err EUninitializedAccount
        else Err EInvalidAccountData
      else Err EUninitializedAccount
  end.

(** state.rs 80-85 *)
Definition swap_is_initialized (input : list Z) : bool :=
  match swap_unpack input with
  | Ok s => st_is_initialized s
  | Err _ => false
  end.
