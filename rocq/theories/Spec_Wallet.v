(** Specification vocabulary for wallet balances and funding (properties C30-C37).  It uses the types of the model (outputs,
    conditions, locks) and none of its balance, funding or building code, except the dictionaries' contents. *)
From Verif Require Import Base Encoders Primitive Types Conditions Fulfillments ThreeBotTypes Txn Wallet.

(** ** Observations: an output was seen created or spent, in a confirmed or unconfirmed transaction *)
Record obs := mkobs { ob_out : output; ob_confirmed : bool; ob_spent : bool }.
Definition about (id : bytes) (x : obs) : Prop := o_id (ob_out x) = id.
(** some observation of the history has these two flags and this output id *)
Definition seen (h : list obs) (confirmed spent : bool) (id : bytes) : Prop :=
  exists x, In x h /\ about id x /\ ob_confirmed x = confirmed /\ ob_spent x = spent.
Definition seen_spent (h : list obs) (id : bytes) : Prop := seen h true true id \/ seen h false true id.
(** the last creation of the output was seen in an unconfirmed transaction *)
Definition last_created_unconfirmed (h : list obs) (id : bytes) : Prop :=
  exists h1 x h2, h = h1 ++ x :: h2 /\ about id x /\ ob_confirmed x = false /\ ob_spent x = false /\ ~ seen h2 true false id.
(** no output is seen created in an unconfirmed transaction after it was seen created in a confirmed one *)
Definition unconfirmed_first (h : list obs) : Prop :=
  forall h1 x h2, h = h1 ++ x :: h2 -> ob_confirmed x = false -> ob_spent x = false -> ~ seen h1 true false (o_id (ob_out x)).
(** every observation of one id is of the same output *)
Definition consistent (h : list obs) : Prop :=
  forall x y, In x h -> In y h -> o_id (ob_out x) = o_id (ob_out y) -> ob_out x = ob_out y.

(** the dictionary contains the id *)
Definition has (d : odict) (id : bytes) : Prop := In id (map fst d).

(** the balance of a history *)
Definition observe (b : bal) (h : list obs) : bal := fold_left (fun b x => dicts_add b (ob_out x) (ob_confirmed x) (ob_spent x)) h b.

(** ** Locks: a lock is a height, or from 500 000 000 on a time *)
Definition lock_open (l height time : Z) : Prop := ((500000000 <= l -> l <= time) /\ (l < 500000000 -> l <= height))%Z.
Definition open_at (height time : Z) (o : output) : Prop :=
  match o_cond o with CLock l _ => lock_open l height time | _ => (0 <= height)%Z end.

(** ** Amounts *)
Fixpoint sum (l : list N) : N := match l with [] => 0 | x :: l => x + sum l end.
Definition worth (l : list output) : N := sum (map o_value l).
Definition opt_worth (o : option output) : N := match o with Some o => o_value o | None => 0 end.
Definition ids (l : list output) : list bytes := map o_id l.
Definition in_worth (l : list input) : N := sum (map (fun i => match i_out i with Some o => o_value o | None => 0 end) l).

(** ** What may be used to fund *)
Section Hash.
Variable H : bytes -> bytes.
Definition pays_to (addrs : list uh) (o : output) : bool :=
  match cond_unlockhash H (o_cond o) with Ok u => existsb (uh_eqb u) addrs | Err _ => false end.
Definition spendable (b : bal) : list output := outputs_available b ++ outputs_unconfirmed_available b.
Definition personal (s : list uh) : list uh := filter (fun u => negb (uh_type u =? 3)%Z) s.
(** all outputs that may be used: without source those of the wallet, otherwise those of the given addresses *)
Definition pool (w : wbal) (source : option (list uh)) : list output :=
  match source with
  | None => spendable (wb_own w)
  | Some s => filter (pays_to (personal s)) (spendable (wb_own w)) ++
              flat_map (fun m => if existsb (uh_eqb (ms_addr m)) s then spendable (ms_bal m) else []) (wb_ms w)
  end.
End Hash.
(** [sel] is a selection of [pool], using each element at most as often as it occurs in it *)
Definition selection (sel pool : list output) : Prop := exists rest, Permutation (sel ++ rest) pool.
(** the input spends the output: its id, the output itself and a fresh fulfilment for its condition *)
Definition spends (i : input) (o : output) : Prop :=
  i_parent i = o_id o /\ i_out i = Some o /\ from_condition (o_cond o) = Ok (i_ff i).

(** ** Conservation *)
(** the coin inputs are worth the coin outputs, the miner fees and [cost] *)
Definition conserves (t : txn) (cost : N) : Prop :=
  exists ins, coin_inputs t = Ok ins /\ in_worth ins = worth (coin_outputs t) + sum (miner_fees t) + cost.
(** who gets the remainder: the given recipient, else the single source address, else the wallet's own address *)
Definition refund_to (w : wbal) (primary : uh) (source : option (list uh)) (given : option cond) : cond :=
  match given with
  | Some c => c
  | None =>
      match source with
      | Some [u] => if (uh_type u =? 1)%Z then CUnlockHash u
                    else match find (fun m => uh_eqb (ms_addr m) u) (wb_ms w) with
                         | Some m => CMulti (ms_owners m) (ms_count m)
                         | None => CUnlockHash primary
                         end
      | _ => CUnlockHash primary
      end
  end.
Definition change (r : N) (c : cond) : list output := if r =? 0 then [] else [mkout r c []].
