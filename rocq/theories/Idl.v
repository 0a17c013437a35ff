(** The instructions that Anchor's [#[program]] macro (lib.rs 30) adds to every program,
    with which an interface description (IDL) is stored on the chain.  They can be
    left out with the feature "no-idl", which this program does not have
    (Cargo.toml 13-16).  Their source is not in /repo; transcribed from anchor-lang 0.20.1:
    src/idl.rs, src/ctor.rs and the code generated for [__idl_dispatch]. *)
From Coq Require Import String.
From Verif Require Import Ints Codec Token Processor Sha256 Entry.

(** [IDL_IX_TAG] *)
Definition IDL_TAG : list Z := to_le 8 750387718428357696.

(** [IdlAccount]: authority and data.  Stored behind a tag of eight bytes, the data
    behind its length in four. *)
Record idl_account : Type := mk_idl { idl_authority : Z; idl_data : list Z }.
Definition IDL_ACCOUNT_TAG : list Z := firstn 8 (sha256 (bytes_of "internal:IdlAccount")).
Definition u32_max : Z := 4294967295.

(** [try_deserialize_unchecked]: the tag is not looked at. *)
Definition idl_read_unchecked (l : list Z) : option idl_account :=
  if Nat.ltb (length l) 44 then None
  else let n := from_le (slice 40 4 l) in
       if Z.of_nat (length l) - 44 <? n then None
       else Some (mk_idl (from_le (slice 8 32 l)) (firstn (Z.to_nat n) (skipn 44 l))).

Definition idl_pack (a : idl_account) : list Z :=
  IDL_ACCOUNT_TAG ++ to_le 32 (idl_authority a) ++ to_le 4 (Z.of_nat (length (idl_data a))) ++ idl_data a.

(** [ProgramAccount::try_from] *)
Definition idl_load (w : world) (k : Z) : result idl_account :=
  do! _ := guard (negb (a_owner (w k) =? PROGRAM_ID)) ERuntime in
  let l := raw_of (a_data (w k)) in
  do! _ := guard (negb (bytes_eqb (firstn 8 l) IDL_ACCOUNT_TAG)) ERuntime in
  match idl_read_unchecked l with Some a => Ok a | None => Err ERuntime end.

(** [ProgramAccount::exit]: writes over the beginning of the account; the runtime discards
    changes to accounts of other programs. *)
Definition idl_store (w : world) (k : Z) (a : idl_account) : result world :=
  let l := raw_of (a_data (w k)) in
  do! _ := guard (u32_max <? Z.of_nat (length (idl_data a))) ERuntime in
  do! _ := guard (Nat.ltb (length l) (length (idl_pack a))) ERuntime in
  do! _ := guard (negb (a_owner (w k) =? PROGRAM_ID)) ERuntime in
  Ok (upd w k (mk_account PROGRAM_ID (DRaw (overwrite (idl_pack a) l)))).

(** [IdlInstruction] *)
Inductive idl_instr : Type :=
| IdlCreate (data_len : Z)
| IdlCreateBuffer
| IdlWrite (data : list Z)
| IdlSetBuffer
| IdlSetAuthority (new_authority : Z).

(** Borsh; bytes left over are ignored. *)
Definition idl_decode (l : list Z) : result idl_instr :=
  match l with
  | 0 :: r => if Nat.ltb (length r) 8 then Err ERuntime else Ok (IdlCreate (from_le (firstn 8 r)))
  | 1 :: _ => Ok IdlCreateBuffer
  | 2 :: r =>
      if Nat.ltb (length r) 4 then Err ERuntime
      else let n := from_le (firstn 4 r) in
           if Z.of_nat (length r) - 4 <? n then Err ERuntime
           else Ok (IdlWrite (firstn (Z.to_nat n) (skipn 4 r)))
  | 3 :: _ => Ok IdlSetBuffer
  | 4 :: r => if Nat.ltb (length r) 32 then Err ERuntime else Ok (IdlSetAuthority (from_le (firstn 32 r)))
  | _ => Err ERuntime
  end.

(** The address of the description, the derived address (no seeds) it is created from,
    and whether the generated code checks that the fourth account of [Create] is the
    system program (versions of anchor-lang differ). *)
Record idl_env : Type := mk_idl_env { idl_address : Z; idl_base : Z; idl_checked : bool }.

(** Data that a call from one program to another can allocate at once. *)
Definition MAX_GROWTH : Z := 10240.

(** [signer], and not the address of zeros *)
Definition idl_signed (signers : list Z) (authority : Z) : result unit :=
  do! _ := guard (negb (mem authority signers)) EMissingRequiredSignature in
  guard (authority =? 0) ERuntime.

Definition idl_exec (ie : idl_env) (signers writable accounts : list Z) (w : world) (i : idl_instr) : result world :=
  match i, accounts with
  | IdlCreate data_len, from :: to :: base :: system :: program :: _ =>
      do! _ := guard (negb (mem from signers)) EMissingRequiredSignature in
      do! _ := guard (negb (mem to writable)) ERuntime in
      do! _ := guard (idl_checked ie && negb (system =? SYSTEM_PROGRAM_ID)) EIncorrectProgramId in
      do! _ := guard (negb (program =? PROGRAM_ID)) ERuntime in
      (* 64-bit addition; wraps around *)
      let space := (8 + 32 + 4 + data_len) mod 2 ^ 64 in
      (* the system program creates the account at [idl_address] *)
      let given := [from; to; base; system] in
      do! _ := guard (negb (mem (idl_address ie) given && mem (idl_base ie) given)) ERuntime in
      do! _ := guard (negb (mem (idl_address ie) writable)) ERuntime in
      do! _ := guard (MAX_GROWTH <? space) ERuntime in
      do! _ := guard (negb (a_owner (w (idl_address ie)) =? SYSTEM_PROGRAM_ID)) ERuntime in
      do! w1 :=
        match a_data (w (idl_address ie)) with
        | DRaw [] => Ok (upd w (idl_address ie) (mk_account PROGRAM_ID (DRaw (repeat 0 (Z.to_nat space)))))
        | _ => Err ERuntime
        end in
      (* the account in second position gets an authority *)
      match idl_read_unchecked (raw_of (a_data (w1 to))) with
      | Some a => idl_store w1 to (mk_idl from (idl_data a))
      | None => Err ERuntime
      end
  | IdlCreateBuffer, buffer :: authority :: rent :: _ =>
      let l := raw_of (a_data (w buffer)) in
      do! _ := guard (Nat.ltb (length l) 8) EPanic in
      do! _ := guard (negb (from_le (firstn 8 l) =? 0)) ERuntime in
      do! _ := guard (negb (a_owner (w buffer) =? PROGRAM_ID)) ERuntime in
      match idl_read_unchecked l with
      | Some a =>
          do! _ := guard (negb (mem buffer writable)) ERuntime in
          do! _ := idl_signed signers authority in
          idl_store w buffer (mk_idl authority (idl_data a))
      | None => Err ERuntime
      end
  | IdlWrite data, idl :: authority :: _ =>
      do! a := idl_load w idl in
      do! _ := guard (negb (mem idl writable)) ERuntime in
      do! _ := guard (negb (idl_authority a =? authority)) ERuntime in
      do! _ := idl_signed signers authority in
      idl_store w idl (mk_idl (idl_authority a) (idl_data a ++ data))
  | IdlSetAuthority new_authority, idl :: authority :: _ =>
      do! a := idl_load w idl in
      do! _ := guard (negb (mem idl writable)) ERuntime in
      do! _ := guard (negb (idl_authority a =? authority)) ERuntime in
      do! _ := idl_signed signers authority in
      idl_store w idl (mk_idl new_authority (idl_data a))
  | IdlSetBuffer, buffer :: idl :: authority :: _ =>
      do! b := idl_load w buffer in
      do! a := idl_load w idl in
      do! _ := guard (negb (mem buffer writable && mem idl writable)) ERuntime in
      do! _ := guard (negb (idl_authority b =? idl_authority a)) ERuntime in
      do! _ := guard (negb (idl_authority a =? authority)) ERuntime in
      do! _ := idl_signed signers authority in
      do! w1 := idl_store w buffer b in
      idl_store w1 idl (mk_idl (idl_authority a) (idl_data b))
  | _, _ => Err ENotEnoughAccountKeys
  end.

(** The whole entry point. *)
Definition full_entry (e : env) (ie : idl_env) (w : world) (t : transaction) : result world :=
  if Nat.ltb (length (tx_data t)) 8 then Err ERuntime
  else if bytes_eqb (firstn 8 (tx_data t)) IDL_TAG then
    do! i := idl_decode (skipn 8 (tx_data t)) in
    idl_exec ie (tx_signers t) (tx_writable t) (tx_accounts t) w i
  else entry e w t.
