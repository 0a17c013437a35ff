(** A small ledger used by the examples beside the ledger-level theorems: pools
    100 (linear) and 300 (constant price) and the accounts of two users, 900 (the
    fee owner) and 901 (a trader). *)
From Verif Require Import Ints Fees LinearCurve SwapCurve Codec Token Processor Api History Tactics.

Definition ex_pda (k b : Z) : option Z :=
  if (b =? 255) && (0 <=? k) && (k <? 2 ^ 200) then Some (2 ^ 255 + k) else None.
Definition ex_env : env :=
  mk_env (fun k => match ex_pda k 255 with Some a => Some (a, 255) | None => None end) ex_pda None.

Definition tok (mint owner amount : Z) : account :=
  mk_account TOKEN_PROGRAM_ID (DToken (mk_token mint owner amount None 0 false false None)).
Definition a_mint (authority supply : Z) : account :=
  mk_account TOKEN_PROGRAM_ID (DMint (mk_mint (Some authority) supply 9 None)).
Definition zeroed : account := mk_account PROGRAM_ID (DRaw (repeat 0 324)).
Definition auth (pool : Z) : Z := 2 ^ 255 + pool.

Fixpoint of_list (l : list (Z * account)) (k : Z) : account :=
  match l with
  | [] => empty_account
  | (j, a) :: l' => if k =? j then a else of_list l' k
  end.

Definition ex_w0 : world := of_list
  [ (100, zeroed); (101, tok 201 (auth 100) 0); (102, tok 202 (auth 100) 5000); (203, a_mint (auth 100) 0);
    (103, tok 203 900 0); (104, tok 203 901 0);
    (300, zeroed); (301, tok 201 (auth 300) 7000); (302, tok 202 (auth 300) 2000); (403, a_mint (auth 300) 0);
    (303, tok 403 900 0); (304, tok 403 901 0);
    (111, tok 201 901 100000); (112, tok 202 901 50000); (201, a_mint 999 0); (202, a_mint 999 0) ].

Definition ex_fees : fees := mk_fees 1 100 1 50 1 20 0 0.

Definition run1 (signers : list Z) (w : world) (i : instr) : world :=
  match exec ex_env signers w i with Ok w' => w' | Err _ => fun _ => empty_account end.

(** The linear pool (slope 1/2, starting price 50) and the constant-price pool (3). *)
Definition ex_init1 : instr :=
  InitLinearPrice [100; auth 100; 101; 102; 203; 103; 104; TOKEN_PROGRAM_ID] 1 2 50 1.
Definition ex_init2 : instr :=
  InitConstantPrice [300; auth 300; 301; 302; 403; 303; 304; TOKEN_PROGRAM_ID] ex_fees 3.
Definition ex_w1 : world := run1 [100] ex_w0 ex_init1.
Definition ex_w2 : world := run1 [300] ex_w1 ex_init2.

Definition bals (r : result world) (ks : list Z) : list Z :=
  match r with
  | Ok w => map (fun k => match a_data (w k) with DToken t => t_amount t | DMint m => m_supply m | _ => -1 end) ks
  | Err _ => []
  end.

Lemma ex_pda_inv k b a : ex_pda k b = Some a -> b = 255 /\ a = auth k.
Proof.
  unfold ex_pda, auth. generalize (2 ^ 255). generalize (2 ^ 200). intros m n.
  destruct (Z.eqb_spec b 255); cbn [andb]; [| discriminate].
  destruct (_ && _); [| discriminate]. intros H. split; [assumption | congruence].
Qed.
Lemma ex_env_ok : env_ok ex_env.
Proof.
  split.
  - intros k a b H. unfold ex_env in *. cbn [find_pda create_pda] in *.
    destruct (ex_pda k 255) eqn:E; [| discriminate]. injection H as <- <-. split; [exact E |].
    unfold is_u8. lia.
  - intros k b k' b' a H H'. cbn [create_pda ex_env] in *. apply ex_pda_inv in H, H'.
    destruct H as [-> ->], H' as [-> H']. unfold auth in H'. apply Z.add_cancel_l in H'. auto.
Qed.
