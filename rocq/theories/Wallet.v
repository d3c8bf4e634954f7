(** Model of the wallet balance, of funding and of the transactions a wallet builds:
    /repo/tfchain/TFChainWallet.py:304-419, 1065-1157, 1159-1206, 1389-1418, 1618-1647, 1820-2542.
    Amounts are numbers of smallest units: sums and differences of Currency values are exact below 10^19 TFT
    (Prop_Currency.v, C07).  Addresses are the unlock hash objects; texts are not used as keys. *)
From Verif Require Import Base Encoders Primitive Types Conditions Fulfillments ThreeBotTypes Txn.

(** ** Python dicts with Hash keys, in insertion order *)
Section Dict.
Context {A : Type}.
(** Python's dict, as made by TFChainWallet.py:1821-1832; the keys are Hash objects *)
Definition dict := list (bytes * A).
(** Python's dict.get, TFChainWallet.py:1982-2005 *)
Fixpoint dget (d : dict) (k : bytes) : option A :=
  match d with [] => None | (j, x) :: d => if listN_eqb k j then Some x else dget d k end.
(** Python's assignment to a key, TFChainWallet.py:1982-2005: [d[k] = x] *)
Fixpoint dset (d : dict) (k : bytes) (x : A) : dict :=
  match d with [] => [(k, x)] | (j, y) :: d => if listN_eqb k j then (j, x) :: d else (j, y) :: dset d k x end.
(** Python's dict.pop, TFChainWallet.py:1982-2005: [d.pop(k, None)] *)
Fixpoint dpop (d : dict) (k : bytes) : dict :=
  match d with [] => [] | (j, y) :: d => if listN_eqb k j then d else (j, y) :: dpop d k end.
(** Python's [in], TFChainWallet.py:1982-2005 *)
Definition din (d : dict) (k : bytes) : bool := match dget d k with Some _ => true | None => false end.
(** TFChainWallet.py:2023-2056: [for id, x in e.items(): d[id] = x] *)
Definition dmerge (d e : dict) : dict := fold_left (fun d p => dset d (fst p) (snd p)) e d.
End Dict.
Arguments dict : clear implicits.
(** TFChainWallet.py:1821-1832 *)
Definition odict := dict output.

(** ** WalletBalance, TFChainWallet.py:1820-2131.  The set of addresses is a list. *)
(** TFChainWallet.py:1821-1832 *)
Record bal := mkbal {
  w_outs : odict; w_spent : odict; w_unc : odict; w_uncspent : odict;
  w_time : Z; w_height : Z; w_block : bytes; w_addrs : list pystr }.
(** TFChainWallet.py:1821-1832 *)
Definition bal_new : bal := mkbal [] [] [] [] 0 0 [] [].
(** TFChainWallet.py:1982-2005: [output_add]: the dicts; the key is the id of the output *)
Definition dicts_add (b : bal) (o : output) (confirmed spent : bool) : bal :=
  let id := o_id o in
  if confirmed then
    if spent then mkbal (dpop (w_outs b) id) (dset (w_spent b) id o) (dpop (w_unc b) id) (dpop (w_uncspent b) id)
                        (w_time b) (w_height b) (w_block b) (w_addrs b)
    else if negb (din (w_spent b) id) && negb (din (w_uncspent b) id)
    then mkbal (dset (w_outs b) id o) (w_spent b) (dpop (w_unc b) id) (w_uncspent b) (w_time b) (w_height b) (w_block b) (w_addrs b)
    else b
  else if negb (din (w_spent b) id) then
    if spent then mkbal (dpop (w_outs b) id) (w_spent b) (dpop (w_unc b) id) (dset (w_uncspent b) id o)
                        (w_time b) (w_height b) (w_block b) (w_addrs b)
    else if negb (din (w_uncspent b) id)
    then mkbal (w_outs b) (w_spent b) (dset (w_unc b) id o) (w_uncspent b) (w_time b) (w_height b) (w_block b) (w_addrs b)
    else b
  else b.
(** Python's set.add, TFChainWallet.py:1982-2005 *)
Definition addr_add (a : pystr) (l : list pystr) : list pystr := if existsb (listN_eqb a) l then l else l ++ [a].

(** TFChainWallet.py:1914-1923, 1931-1940: with a complete chain context the locked ones are left out *)
Definition known_chain (b : bal) : bool := ((0 <? w_time b) && (0 <? w_height b))%Z.
(** TFChainWallet.py:1914-1923, 1931-1940 *)
Definition is_locked (b : bal) (o : output) : bool := locked_check (cond_lock (o_cond o)) (w_height b) (w_time b).
(** Python's dict.values, TFChainWallet.py:1914-1940 *)
Definition values {A} (d : dict A) : list A := map snd d.
(** TFChainWallet.py:1914-1923, 1931-1940 *)
Definition unlocked (b : bal) (l : list output) : list output :=
  if known_chain b then filter (fun o => negb (is_locked b o)) l else l.
(** TFChainWallet.py:1931-1940 *)
Definition outputs_available (b : bal) : list output := unlocked b (values (w_outs b)).
(** TFChainWallet.py:1914-1923 *)
Definition outputs_unconfirmed_available (b : bal) : list output := unlocked b (values (w_unc b)).
(** Python's sum, TFChainWallet.py:1942-1980 *)
Definition total (l : list output) : N := fold_right N.add 0 (map o_value l).
(** TFChainWallet.py:1942-1947 *)
Definition available (b : bal) : N := total (outputs_available b).
(** TFChainWallet.py:1949-1958, 1971-1980 *)
Definition locked_of (b : bal) (l : list output) : N := if known_chain b then total (filter (is_locked b) l) else 0.
(** TFChainWallet.py:1949-1958 *)
Definition locked (b : bal) : N := locked_of b (values (w_outs b)).
(** TFChainWallet.py:1960-1969 *)
Definition unconfirmed (b : bal) : N := total (outputs_unconfirmed_available b).
(** TFChainWallet.py:1971-1980 *)
Definition unconfirmed_locked (b : bal) : N := locked_of b (values (w_unc b)).

(** Python's set.update, TFChainWallet.py:2023-2056: [balance_add] of two plain balances *)
Definition set_merge (a b : list pystr) : list pystr := fold_left (fun l x => addr_add x l) b a.
(** TFChainWallet.py:2023-2056 [balance_add] of two plain balances *)
Definition balance_add (a b : bal) : res bal :=
  do c <- (if (w_height b <=? w_height a)%Z
           then do _ <- guard (negb (w_time a <? w_time b)%Z) ValueError; Ok (w_time a, w_height a, w_block a)
           else do _ <- guard (negb (w_time b <=? w_time a)%Z) ValueError; Ok (w_time b, w_height b, w_block b));
  let '(t, h, k) := c in
  Ok (mkbal (dmerge (w_outs a) (w_outs b)) (dmerge (w_spent a) (w_spent b)) (dmerge (w_unc a) (w_unc b))
            (dmerge (w_uncspent a) (w_uncspent b)) t h k (set_merge (w_addrs a) (w_addrs b))).

(** [WalletBalance.output_add] with the set of addresses *)
Section HashAdd.
Variable H : bytes -> bytes.
(** TFChainWallet.py:1982-2005 [output_add] *)
Definition output_add (b : bal) (o : output) (confirmed spent : bool) : res bal :=
  do u <- cond_unlockhash H (o_cond o); do s <- uh_str H u;
  let b := dicts_add b o confirmed spent in
  Ok (mkbal (w_outs b) (w_spent b) (w_unc b) (w_uncspent b) (w_time b) (w_height b) (w_block b) (addr_add s (w_addrs b))).
End HashAdd.

(** ** Transactions *)
(** types/IO.py:28-37 [CoinInput.from_coin_output] *)
Definition input_of (o : output) : res input := do f <- from_condition (o_cond o); Ok (mkin (o_id o) f (Some o)).
(** TFChainWallet.py:25 [_MAX_RIVINE_TRANSACTION_INPUTS] *)
Definition MAX_INPUTS : nat := 99.
(** Standard.py:214-226, setter of [data] with bytes *)
Definition data_new (d : bytes) : res bytes := do _ <- guard (length d <=? 83)%nat ValueError; Ok d.

(** TFChainWallet.py:2058-2107: [drain]; the recipient is the condition made of recipient and lock, [data] the bytes of the data. *)
Definition drain_one (recipient : cond) (fee : N) (data : bytes) (used : list output) : res txn :=
  do d <- data_new data;
  do _ <- guard (fee <=? total used) NameError;      (* a negative Currency, PrimitiveTypes.py:225 *)
  do ins <- mapM input_of used;
  Ok (T1 (mkstd false ins [mkout (total used - fee) recipient []] [] [] [fee] d)).
(** TFChainWallet.py:2058-2107, the loop; [n]: fuel, the number of outputs is enough *)
Fixpoint drain_loop (n : nat) (recipient : cond) (fee : N) (data : bytes) (l : list output) : res (list txn) :=
  match n with
  | O => Ok []
  | S n =>
      match l with
      | [] => Ok []
      | _ => let k := Nat.min (length l) MAX_INPUTS in
             do t <- drain_one recipient fee data (firstn k l);
             do r <- drain_loop n recipient fee data (skipn k l); Ok (t :: r)
      end
  end.
(** TFChainWallet.py:2058-2107 [drain] *)
Definition drain (b : bal) (recipient : cond) (fee : N) (unconfirmed : bool) (data : bytes) : res (list txn) :=
  do _ <- guard (negb (fee =? 0)) ValueError;
  let l := outputs_available b ++ (if unconfirmed then outputs_unconfirmed_available b else []) in
  drain_loop (length l) recipient fee data l.

(** ** WalletsBalance, 2200-2436: a balance with one balance for each multi-signature wallet (address, owners, signatures) *)
(** TFChainWallet.py:2135-2148 *)
Record msbal := mkms { ms_addr : uh; ms_owners : list uh; ms_count : Z; ms_bal : bal }.
(** TFChainWallet.py:2197-2219 *)
Record wbal := mkwb { wb_own : bal; wb_ms : list msbal }.

(** TFChainWallet.py:2221-2242 [multisig_output_add], [output_add].  The constructor of MultiSigWalletBalance (2136-2148) checks the
    signature count.  2233-2234 read the owners from the condition itself, not from the unwrapped one. *)
Section HashAddMs.
Variable H : bytes -> bytes.
(** TFChainWallet.py:2221-2232, the balance stored for an address changed in place *)
Fixpoint ms_update (l : list msbal) (u : uh) (f : bal -> res bal) : option (res (list msbal)) :=
  match l with
  | [] => None
  | m :: l =>
      if uh_eqb (ms_addr m) u then Some (do b <- f (ms_bal m); Ok (mkms (ms_addr m) (ms_owners m) (ms_count m) b :: l))
      else match ms_update l u f with None => None | Some r => Some (do l <- r; Ok (m :: l)) end
  end.
(** TFChainWallet.py:2221-2232 *)
Definition multisig_output_add (w : wbal) (u : uh) (o : output) (confirmed spent : bool) : res wbal :=
  match cond_unwrap (o_cond o) with
  | CMulti _ _ =>
      match ms_update (wb_ms w) u (fun b => output_add H b o confirmed spent) with
      | Some r => do l <- r; Ok (mkwb (wb_own w) l)
      | None =>
          match o_cond o with
          | CMulti us n =>
              do _ <- guard (1 <=? n)%Z ValueError;
              do _ <- guard (n <=? Z.of_nat (length us))%Z ValueError;
              do b <- output_add H bal_new o confirmed spent;
              Ok (mkwb (wb_own w) (wb_ms w ++ [mkms u us n b]))
          | _ => Err AttributeError
          end
      end
  | _ => Err TypeError
  end.
(** TFChainWallet.py:2234-2242 *)
Definition wb_output_add (w : wbal) (o : output) (confirmed spent : bool) : res wbal :=
  do u <- cond_unlockhash H (o_cond o);
  if (uh_type u =? UH_MULTI_SIG)%Z then multisig_output_add w u o confirmed spent
  else do b <- output_add H (wb_own w) o confirmed spent; Ok (mkwb b (wb_ms w)).
End HashAddMs.
(** TFChainWallet.py:2244-2278: [balance_add]: MultiSigWalletBalance has no method [merge] (2282) *)
Fixpoint ms_merge (l r : list msbal) : res (list msbal) :=
  match r with
  | [] => Ok l
  | m :: r => if existsb (fun x => uh_eqb (ms_addr x) (ms_addr m)) l then Err AttributeError else ms_merge (l ++ [m]) r
  end.
(** TFChainWallet.py:2244-2269 *)
Definition wb_balance_add (a b : wbal) : res wbal :=
  do o <- balance_add (wb_own a) (wb_own b); do l <- ms_merge (wb_ms a) (wb_ms b); Ok (mkwb o l).

(** Python's list.sort, TFChainWallet.py:2356-2436: stable sort by value, Python's [sort(key=value)] *)
Fixpoint insert_val (le : output -> output -> bool) (x : output) (l : list output) : list output :=
  match l with [] => [x] | y :: l => if le x y then x :: y :: l else y :: insert_val le x l end.
(** Python's list.sort, TFChainWallet.py:2356-2436 *)
Definition sort_by (le : output -> output -> bool) (l : list output) : list output := fold_right (insert_val le) [] l.
(** TFChainWallet.py:2356-2392, 2394-2436, the confirmed outputs *)
Definition sort_asc : list output -> list output := sort_by (fun x y => o_value x <=? o_value y).
(** TFChainWallet.py:2356-2392, 2394-2436, the unconfirmed outputs: [sort(reverse=True)] keeps the order of equal elements *)
Definition sort_desc : list output -> list output := sort_by (fun x y => o_value y <=? o_value x).

(** TFChainWallet.py:2356-2436: the loops of 2362-2373, 2383-2392, 2408-2418, 2427-2435.  [inl]: returned from inside the loop *)
Fixpoint pick (amount : N) (cos : list output) (outs : list output) (collected : N) : (list output * N) + (list output * N) :=
  match cos with
  | [] => inr (outs, collected)
  | co :: cos =>
      if amount <=? o_value co then inl ([co], o_value co)
      else
        let collected := collected + o_value co in
        let outs := outs ++ [co] in
        let '(outs, collected) :=
          if (MAX_INPUTS <? length outs)%nat
          then match outs with [] => (outs, collected) | x :: l => (l, collected - o_value x) end
          else (outs, collected) in
        if amount <=? collected then inl (outs, collected) else pick amount cos outs collected
  end.

Section Hash.
Variable H : bytes -> bytes.

(** TFChainWallet.py:2356-2392: [co.condition.unlockhash in addresses] *)
Fixpoint of_addresses (addrs : list uh) (l : list output) : res (list output) :=
  match l with
  | [] => Ok []
  | o :: l => do u <- cond_unlockhash H (o_cond o); do r <- of_addresses addrs l;
              Ok (if existsb (uh_eqb u) addrs then o :: r else r)
  end.
(** TFChainWallet.py:2356-2392 [_fund_individual] *)
Definition fund_individual (b : bal) (amount : N) (addrs : list uh) : res (list output * N) :=
  do c <- of_addresses addrs (outputs_available b);
  match pick amount (sort_asc c) [] 0 with
  | inl r => Ok r
  | inr (outs, collected) =>
      if amount <=? collected then Ok (outs, collected)
      else
        do u <- of_addresses addrs (outputs_unconfirmed_available b);
        match pick amount (sort_desc u) outs collected with inl r | inr r => Ok r end
  end.
(** TFChainWallet.py:2394-2436 [_fund_multisig] *)
Fixpoint fund_multisig (l : list msbal) (amount : N) (addrs : list uh) (outs : list output) (collected : N) : list output * N :=
  match l with
  | [] => (outs, collected)
  | m :: l =>
      if negb (existsb (uh_eqb (ms_addr m)) addrs) then fund_multisig l amount addrs outs collected
      else
        match pick amount (sort_asc (outputs_available (ms_bal m))) outs collected with
        | inl r => r
        | inr (outs, collected) =>
            if amount <=? collected then (outs, collected)
            else
              match pick amount (sort_desc (outputs_unconfirmed_available (ms_bal m))) outs collected with
              | inl r => r
              | inr (outs, collected) => fund_multisig l amount addrs outs collected
              end
        end
  end.
(** TFChainWallet.py:2287-2354: [fund]; [source]: None or the list of source addresses (a single one is a list of one), already parsed.
    Result: inputs, remainder, suggested refund condition. *)
Definition fund_addresses (w : wbal) (source : option (list uh)) : res (list uh * list uh * option cond) :=
  match source with
  | None => do us <- mapM (fun o => cond_unlockhash H (o_cond o)) (outputs_available (wb_own w) ++ outputs_unconfirmed_available (wb_own w));
            Ok (us, [], None)
  | Some s =>
      do _ <- guard (forallb (fun u => (uh_type u =? UH_MULTI_SIG)%Z || (uh_type u =? UH_PUBLIC_KEY)%Z) s) TypeError;
      let refund := match s with
                    | [u] => if (uh_type u =? UH_PUBLIC_KEY)%Z then Some (CUnlockHash u)
                             else match find (fun m => uh_eqb (ms_addr m) u) (wb_ms w) with
                                  | Some m => Some (CMulti (ms_owners m) (ms_count m))
                                  | None => None
                                  end
                    | _ => None
                    end in
      Ok (filter (fun u => negb (uh_type u =? UH_MULTI_SIG)%Z) s, filter (fun u => (uh_type u =? UH_MULTI_SIG)%Z) s, refund)
  end.
(** TFChainWallet.py:2287-2354, the outputs chosen *)
Definition fund_outputs (w : wbal) (amount : N) (source : option (list uh)) : res (list output * N * option cond) :=
  do a <- fund_addresses w source;
  let '(addrs, ms, refund) := a in
  do _ <- guard (negb ((length addrs =? 0) && (length ms =? 0))%nat) InsufficientFunds;
  do r <- (match addrs with [] => Ok ([], 0) | _ => fund_individual (wb_own w) amount addrs end);
  let '(outs, collected) := r in
  if amount <=? collected then Ok (outs, collected, refund)
  else
    do _ <- guard (negb (length ms =? 0)%nat) InsufficientFunds;
    let '(outs, collected) := fund_multisig (wb_ms w) amount ms outs collected in
    do _ <- guard (amount <=? collected) InsufficientFunds;
    Ok (outs, collected, refund).
(** TFChainWallet.py:2287-2354 [fund] *)
Definition fund (w : wbal) (amount : N) (source : option (list uh)) : res (list input * N * option cond) :=
  do r <- fund_outputs w amount source;
  let '(outs, collected, refund) := r in
  do ins <- mapM input_of outs; Ok (ins, collected - amount, refund).

(** ** Transactions the wallet builds, before they are signed (see TxnSign.v) *)
(** TFChainWallet.py:304-419: the refund condition; [given]: the condition made of the refund argument *)
Definition refund_cond (primary : uh) (given suggested : option cond) : cond :=
  match given, suggested with Some c, _ => c | None, Some c => c | None, None => CUnlockHash primary end.
(** TFChainWallet.py:304-419, 2477-2542: [coins_send] (a single output) and 2480-2510 [CoinTransactionBuilder.send] (the outputs added before) *)
Definition send_build (w : wbal) (fee : N) (primary : uh) (pays : list (cond * N)) (source : option (list uh)) (given : option cond) (data : bytes) : res txn :=
  let amount := fold_right N.add 0 (map snd pays) in
  do f <- fund w (amount + fee) source;
  let '(ins, remainder, suggested) := f in
  do d <- data_new data;
  let outs := map (fun p => mkout (snd p) (fst p) []) pays in
  Ok (T1 (mkstd false ins (outs ++ (if 0 <? remainder then [mkout remainder (refund_cond primary given suggested) []] else [])) [] [] [fee] d)).
(** TFChainWallet.py:304-419: the amount has to be positive *)
Definition coins_send (w : wbal) (fee : N) (primary : uh) (recipient : cond) (amount : N) (source : option (list uh)) (given : option cond) (data : bytes) : res txn :=
  do _ <- guard (0 <? amount) ValueError;
  send_build w fee primary [(recipient, amount)] source given data.
(** TFChainWallet.py:1065-1157 [_create_contract]; [lock]: the refund time as a number.  Setters of the condition: types/ConditionTypes.py:545-556 and following *)
Definition create_contract (now : Z) (w : wbal) (fee : N) (primary : uh) (receiver : uh) (amount : N) (secret_hash : bytes) (lock : Z)
    (source : option (list uh)) (given : option cond) (data : bytes) : res txn :=
  do _ <- guard (0 <? amount) ValueError;
  do _ <- guard (fee <? amount) AtomicSwapInsufficientAmount;
  do f <- fund w (amount + fee) source;
  let '(ins, remainder, suggested) := f in
  let refund := refund_cond primary given suggested in
  do d <- data_new data;
  do sender <- swap_party (match refund with CUnlockHash u => u | _ => primary end);
  do receiver <- swap_party receiver;
  do l <- swap_lock now lock;
  Ok (T1 (mkstd false ins (mkout amount (CSwap sender receiver (Some secret_hash) l) [] ::
                           (if 0 <? remainder then [mkout remainder refund []] else [])) [] [] [fee] d)).
(** TFChainWallet.py:1389-1418, 1618-1647: [_fund_txn] of the 3Bot transactions and 1624-1655 of the ERC20 ones: inputs, refund output, fee *)
Definition fund_txn (w : wbal) (fee cost : N) (primary : uh) (source : option (list uh)) (given : option cond)
  : res (list input * option output * N) :=
  do f <- fund w (fee + cost) source;
  let '(ins, remainder, suggested) := f in
  Ok (ins, if 0 <? remainder then Some (mkout remainder (refund_cond primary given suggested) []) else None, fee).
(** TFChainWallet.py:1389-1418, 1618-1647: [txn.coin_inputs = ...; txn.refund_coin_output_set(...); txn.transaction_fee = ...] *)
Definition set_funding (t : txn) (f : list input * option output * N) : res txn :=
  let '(ins, refund, fee) := f in
  match t with
  | T208 t => Ok (T208 (mkconv (c_addr t) (c_value t) (Some fee) ins refund))
  | T210 t => Ok (T210 (mkreg (r_pk t) (r_sig t) (Some fee) (Some ins) refund))
  | T144 t => Ok (T144 (mkbot (b_addrs t) (b_names t) (b_months t) (Some fee) ins refund (b_pk t) (b_sig t)))
  | T145 t => Ok (T145 (mkupd (u_id t) (u_addr_add t) (u_addr_del t) (u_name_add t) (u_name_del t) (u_months t) (Some fee) ins refund (u_sig t) (u_parent t)))
  | T146 t => Ok (T146 (mkname (n_sender t) (n_receiver t) (n_names t) (Some fee) (Some ins) refund (n_ssig t) (n_rsig t) (n_spk t) (n_rpk t)))
  | _ => Err AttributeError
  end.
(** TFChainWallet.py:1250-1386, 1491-1565: a 3Bot or ERC20 transaction [t], which costs [cost] beside the miner fee *)
Definition special_build (w : wbal) (fee cost : N) (primary : uh) (t : txn) (source : option (list uh)) (given : option cond) : res txn :=
  do f <- fund_txn w fee cost primary source given; set_funding t f.

(** ** CoinTransactionBuilder, 2438-2510.  [None]: consumed *)
(** TFChainWallet.py:2438-2441 *)
Definition builder := option (list (cond * N)).
(** TFChainWallet.py:2439-2441 *)
Definition builder_new : builder := Some [].
(** TFChainWallet.py:2443-2475: [output_add] *)
Definition builder_add (b : builder) (recipient : cond) (amount : N) : builder * res unit :=
  match b with
  | None => (None, Err RuntimeError)
  | Some l => if 0 <? amount then (Some (l ++ [(recipient, amount)]), Ok tt) else (b, Err ValueError)
  end.
(** TFChainWallet.py:2477-2542: [send]: the transaction before it is signed; a consumed builder has no [coin_outputs] (2483) *)
Definition builder_send (b : builder) (w : wbal) (fee : N) (primary : uh) (source : option (list uh)) (given : option cond) (data : bytes) : builder * res txn :=
  match b with
  | None => (None, Err AttributeError)
  | Some l => (None, send_build w fee primary l source given data)
  end.

End Hash.
