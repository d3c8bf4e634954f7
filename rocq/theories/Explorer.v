(** Model of the explorer client: /repo/tfchain/TFChainExplorerClient.py, /repo/tfchain/internal/HttpClient.py:178-213
    and of the parts of /repo/tfchain/TFChainClient.py that read an explorer's answers. *)
From Verif Require Import Base Encoders Currency Primitive Types Conditions Fulfillments ThreeBotTypes Txn TxnJson Wallet.

(** ** Requests *)
(** What happens when an explorer is contacted.  [Unreachable]: urlopen raises something else than urllib's HTTPError
    (connection refused, time-out, ...); [Refused]: urllib's HTTPError, with its status and body; [Answered]: a response, with
    its status and first line; [Raised]: an exception outside of urlopen (a malformed address: HttpClient.py:192, 197;
    or the connection breaking while the answer is read). *)
Inductive outcome :=
| Unreachable
| Refused (code : Z) (body : bytes)
| Answered (code : Z) (line : bytes)
| Raised (e : exn).

(** TFChainExplorerClient.py:40-62, 80-102: [x in msg] for a message in UTF-8 *)
Definition has_text (x : string) (msg : bytes) : bool := substring (s2b x) msg.

(** What one iteration of the loop does: [None]: next explorer.
    HttpClient.py:33-47, 204-213: for a status other than 200, 201, 204 the message is built with a wrong format, which raises
    a TypeError.  TFChainExplorerClient.py:40-62; the body of a 400 is assumed to be text (UTF-8). *)
Definition get_step (o : outcome) : option (res bytes) :=
  match o with
  | Unreachable => None
  | Refused code body =>
      if (code =? 400)%Z && (has_text "unrecognized hash" body || has_text "not found" body) then Some (Err ExplorerNoContent)
      else if (code =? 0)%Z then None else Some (Err ExplorerServerError)
  | Answered code line =>
      if (code =? 200)%Z then Some (Ok line)
      else if (code =? 204)%Z then Some (Err ExplorerNoContent)
      else if (code =? 201)%Z then Some (Err ExplorerServerError)
      else Some (Err TypeError)
  | Raised e => Some (Err e)
  end.
(** TFChainExplorerClient.py:80-102 *)
Definition post_step (o : outcome) : option (res bytes) :=
  match o with
  | Unreachable => None
  | Refused code body => if (code =? 0)%Z then None else Some (Err ExplorerServerPostError)
  | Answered code line =>
      if (code =? 200)%Z then Some (Ok line)
      else if (code =? 201)%Z || (code =? 204)%Z then Some (Err ExplorerServerPostError)
      else Some (Err TypeError)
  | Raised e => Some (Err e)
  end.

(** TFChainExplorerClient.py:28-62, 64-102: the loop over the shuffled indices.  [addrs]: the addresses, [None] for one which is not a str; [net]: the
    outcome of the request to the explorer at an index; [ready]: whether the data to post could be made.  The result is the
    list of the indices contacted and what the call returns or raises. *)
Fixpoint try_all (step : outcome -> option (res bytes)) (addrs : list (option pystr)) (ready : res unit) (net : nat -> outcome) (order : list nat)
  : list nat * res bytes :=
  match order with
  | [] => ([], Err ExplorerNotAvailable)
  | i :: order =>
      match nth_error addrs i with
      | Some (Some _) =>
          match ready with
          | Err e => ([], Err e)
          | Ok _ =>
              match step (net i) with
              | Some r => ([i], r)
              | None => let r := try_all step addrs ready net order in (i :: fst r, snd r)
              end
          end
      | _ => ([], Err TypeError)
      end
  end.
(** TFChainExplorerClient.py:28-62 *)
Definition explorer_get (addrs : list (option pystr)) (net : nat -> outcome) (order : list nat) : list nat * res bytes :=
  try_all get_step addrs (Ok tt) net order.
(** TFChainExplorerClient.py:64-102: data to post; [dumps]: the text of serialisable JSON.  The data are made in the first iteration and kept. *)
Inductive pdata := PDict (j : json) | PStr (s : pystr) | PBytes (b : bytes) | POther.
(** TFChainExplorerClient.py:64-102 *)
Definition post_data (dumps : json -> pystr) (d : pdata) : res bytes :=
  match d with
  | PDict j => if jserialisable j then utf8 (dumps j) else Err TypeError
  | PStr s => utf8 s
  | PBytes b => Ok b
  | POther => Err TypeError
  end.
(** TFChainExplorerClient.py:64-102 *)
Definition explorer_post (dumps : json -> pystr) (addrs : list (option pystr)) (d : pdata) (net : nat -> outcome) (order : list nat)
  : list nat * res bytes :=
  try_all post_step addrs (do _ <- post_data dumps d; Ok tt) net order.
(** TFChainExplorerClient.py:16-19: , the constructor: [None] for something that is not a list *)
Definition client_new (addrs : option (list (option pystr))) : res (list (option pystr)) :=
  match addrs with Some (a :: l) => Ok (a :: l) | _ => Err TypeError end.

(** ** Transactions from an explorer: TFChainClient.py:378-417 *)
(** a transaction object as the explorer reports it: with id, and with height unless unconfirmed (Base.py:48-51: -1) *)
Record etx := mketx { e_txn : txn; e_id : bytes; e_unconfirmed : bool; e_height : Z }.

(** assigning the ids of coin outputs one by one; the outputs of a V209 are made anew at each access (ERC20.py:320-326), so
    that the ids assigned are lost *)
Fixpoint set_ids (os : list output) (ids : list bytes) : list output :=
  match os, ids with o :: os, i :: ids => mkout (o_value o) (o_cond o) i :: set_ids os ids | _, _ => os end.
(** types/transactions/ThreeBot.py:190-193, 551-554, 996-999, ERC20.py:112-115, 517-520 *)
Definition set_refund (o : option output) (ids : list bytes) : option output :=
  match o, ids with Some o, i :: _ => Some (mkout (o_value o) (o_cond o) i) | _, _ => o end.
(** TFChainClient.py:378-417 *)
Definition set_coin_ids (t : txn) (ids : list bytes) : txn :=
  match t with
  | T1 t => T1 (mkstd (s_legacy t) (s_cin t) (set_ids (s_cout t) ids) (s_bin t) (s_bout t) (s_fees t) (s_data t))
  | TMint t => TMint (mkmint (m_ff t) (match m_new t with MCond c => MCond c | MCoins os => MCoins (set_ids os ids) end)
                        (m_fees t) (m_data t) (m_nonce t) (m_parent t))
  | T208 t => T208 (mkconv (c_addr t) (c_value t) (c_fee t) (c_cin t) (set_refund (c_refund t) ids))
  | T209 t => T209 t
  | T210 t => T210 (mkreg (r_pk t) (r_sig t) (r_fee t) (r_cin t) (set_refund (r_refund t) ids))
  | T144 t => T144 (mkbot (b_addrs t) (b_names t) (b_months t) (b_fee t) (b_cin t) (set_refund (b_refund t) ids) (b_pk t) (b_sig t))
  | T145 t => T145 (mkupd (u_id t) (u_addr_add t) (u_addr_del t) (u_name_add t) (u_name_del t) (u_months t) (u_fee t) (u_cin t)
                      (set_refund (u_refund t) ids) (u_sig t) (u_parent t))
  | T146 t => T146 (mkname (n_sender t) (n_receiver t) (n_names t) (n_fee t) (n_cin t) (set_refund (n_refund t) ids) (n_ssig t) (n_rsig t)
                      (n_spk t) (n_rpk t))
  end.
(** TFChainClient.py:378-417 *)
Definition set_stake_ids (t : txn) (ids : list bytes) : txn :=
  match t with
  | T1 t => T1 (mkstd (s_legacy t) (s_cin t) (s_cout t) (s_bin t) (set_ids (s_bout t) ids) (s_fees t) (s_data t))
  | _ => t
  end.
(** TFChainClient.py:378-417: the parent outputs, with the id of the input as their id *)
Fixpoint set_parents (l : list input) (os : list output) : list input :=
  match l, os with
  | i :: l, o :: os => mkin (i_parent i) (i_ff i) (Some (mkout (o_value o) (o_cond o) (i_parent i))) :: set_parents l os
  | _, _ => l
  end.

(** TFChainClient.py:378-417: [etxn.get(key, None) or []], to be iterated over *)
Definition jlist_of (k : string) (e : json) : res (list json) :=
  do v <- jget_d k JNull e; jelems (jor v (JArr [])).
(** TFChainClient.py:378-417: a JSON value given to [Hash(value=...)] *)
Definition jbval (j : json) : bval := match j with JNull => BVNone | JStr s => BVStr s | _ => BVOther end.
(** TFChainClient.py:378-417 *)
Definition same_length {A B} (l : list A) (m : list B) : res unit := guard (length l =? length m)%nat ExplorerInvalidResponse.

Section Hash.
Variable H : bytes -> bytes.
Variable ip_parse : pystr -> res bytes.
Variable now : Z.

(** TFChainClient.py:378-417: replace the coin inputs, in TxnSign.v for the whole library; here to keep the order of files *)
Definition put_cin (t : txn) (l : list input) : txn :=
  match t with
  | T1 t => T1 (mkstd (s_legacy t) l (s_cout t) (s_bin t) (s_bout t) (s_fees t) (s_data t))
  | TMint _ | T209 _ => t
  | T208 t => T208 (mkconv (c_addr t) (c_value t) (c_fee t) l (c_refund t))
  | T210 t => T210 (mkreg (r_pk t) (r_sig t) (r_fee t) (Some l) (r_refund t))
  | T144 t => T144 (mkbot (b_addrs t) (b_names t) (b_months t) (b_fee t) l (b_refund t) (b_pk t) (b_sig t))
  | T145 t => T145 (mkupd (u_id t) (u_addr_add t) (u_addr_del t) (u_name_add t) (u_name_del t) (u_months t) (u_fee t) l (u_refund t) (u_sig t) (u_parent t))
  | T146 t => T146 (mkname (n_sender t) (n_receiver t) (n_names t) (n_fee t) (Some l) (n_refund t) (n_ssig t) (n_rsig t) (n_spk t) (n_rpk t))
  end.
(** TFChainClient.py:378-417 *)
Definition put_bin (t : txn) (l : list input) : txn :=
  match t with
  | T1 t => T1 (mkstd (s_legacy t) (s_cin t) (s_cout t) l (s_bout t) (s_fees t) (s_data t))
  | _ => t
  end.
(** TFChainClient.py:378-417 [_transaction_from_explorer_transaction]: ; a raw transaction given as JSON text instead of an object is not modelled *)
Definition explorer_txn (e : json) : res etx :=
  do raw <- jget "rawtransaction" e;
  do id <- jget "id" e;
  do x <- txn_parse H ip_parse now raw (jbval id);
  let t := fst x in
  do ps <- jlist_of "coininputoutputs" e;
  do ins <- coin_inputs t;
  do _ <- same_length ins ps;
  do pos <- mapM (cout_from_json H now) ps;
  let t := put_cin t (set_parents ins pos) in
  do cids <- jlist_of "coinoutputids" e;
  do _ <- same_length (coin_outputs t) cids;
  do cids <- mapM hash_from_json cids;
  let t := set_coin_ids t cids in
  do ps <- jlist_of "blockstakeinputoutputs" e;
  do _ <- same_length (blockstake_inputs t) ps;
  do pos <- mapM (bout_from_json H now) ps;
  let t := put_bin t (set_parents (blockstake_inputs t) pos) in
  do bids <- jlist_of "blockstakeoutputids" e;
  do _ <- same_length (blockstake_outputs t) bids;
  do bids <- mapM hash_from_json bids;
  let t := set_stake_ids t bids in
  do u <- jget_d "unconfirmed" (JBool false) e;
  match u with
  | JBool u =>
      do h <- (if u then Ok (-1)%Z
               else do v <- jget_d "height" JNull e; do h <- jint v; do _ <- guard (0 <=? h)%Z ValueError; Ok h);
      Ok (mketx t (match snd x with Some i => i | None => [] end) u h)
  | _ => Err TypeError
  end.

(** TFChainClient.py:156-376: [except KeyError] around the reading of an answer *)
Definition key_error {A} (r : res A) : res A := match r with Err KeyError => Err ExplorerInvalidResponse | _ => r end.
(** TFChainClient.py:156-376: [resp['hashtype'] != kind] *)
Definition hashtype_is (kind : string) (resp : json) : res unit :=
  do k <- jget "hashtype" resp;
  guard (match k with JStr s => listN_eqb s (s2b kind) | _ => false end) ExplorerInvalidResponse.

(** TFChainClient.py:216-235: [transaction_get]: [txid] is the normalised id, a text; [resp] what the explorer answered *)
Definition transaction_get (txid : pystr) (resp : json) : res etx :=
  key_error (
    do _ <- hashtype_is "transactionid" resp;
    do r <- jget "transaction" resp;
    do i <- jget "id" r;
    do _ <- guard (match i with JStr s => listN_eqb s txid | _ => false end) ExplorerInvalidResponse;
    explorer_txn r).

(** ** Outputs: 309-376 *)
(** Python's order of texts, for TFChainClient.py:254-307: [a > b] of JSON values: numbers, or texts; comparing lists is not modelled *)
Fixpoint str_gt (a b : pystr) : bool :=
  match a, b with
  | [], _ => false
  | _ :: _, [] => true
  | x :: a, y :: b => (y <? x) || ((x =? y) && str_gt a b)
  end.
(** Python's numbers in JSON, for TFChainClient.py:254-307 *)
Definition jnum (j : json) : option Z :=
  match j with JNum z => Some z | JBool b => Some (if b then 1 else 0)%Z | _ => None end.
(** TFChainClient.py:329-417 *)
Definition jgt (a b : json) : res bool :=
  match jnum a, jnum b, a, b with
  | Some x, Some y, _, _ => Ok (y <? x)%Z
  | _, _, JStr x, JStr y => Ok (str_gt x y)
  | _, _, _, _ => Err TypeError
  end.
(** TFChainClient.py:309-376 *)
Inductive okind := KCoin | KStake.
(** TFChainClient.py:309-327 *)
Definition kind_text (k : okind) : string := match k with KCoin => "coinoutputid" | KStake => "blockstakeoutputid" end.
(** TFChainClient.py:329-376 *)
Definition outputs_of (k : okind) (t : txn) : list output := match k with KCoin => coin_outputs t | KStake => blockstake_outputs t end.
(** TFChainClient.py:329-376: [id]: the normalised id, a text *)
Definition output_get (k : okind) (id : pystr) (resp : json) : res (output * etx * option etx) :=
  key_error (
    do _ <- hashtype_is (kind_text k) resp;
    do ts <- jget "transactions" resp;
    do l <- (match ts with JArr l => Ok l | _ => Err TypeError end);
    do cs <- match l with
             | [c] => Ok (c, None)
             | [c; s] => do hs <- jget "height" s; do hc <- jget "height" c; do g <- jgt hs hc;
                         Ok (if g then (c, Some s) else (s, Some c))
             | _ => Err ExplorerInvalidResponse
             end;
    do c <- explorer_txn (fst cs);
    do s <- match snd cs with None => Ok None | Some s => do s <- explorer_txn s; Ok (Some s) end;
    match find (fun o => listN_eqb (hash_str (o_id o)) id) (outputs_of k (e_txn c)) with
    | None => Err ExplorerInvalidResponse
    | Some o => Ok (o, c, s)
    end).

(** ** Addresses: 254-307 *)
(** TFChainClient.py:300 *)
Definition MAXSIZE : Z := 9223372036854775807.   (** TFChainClient.py:294-303: sys.maxsize on 64 bit *)
Definition sort_key (x : etx) : Z := if (e_height x <? 0)%Z then MAXSIZE else e_height x.
(** Python's list.sort, TFChainClient.py:294-303: [list.sort(key, reverse=True)]: descending; equal keys keep their order *)
Fixpoint insert_desc (x : etx) (l : list etx) : list etx :=
  match l with
  | [] => [x]
  | y :: l => if (sort_key y <=? sort_key x)%Z then x :: y :: l else y :: insert_desc x l
  end.
(** TFChainClient.py:294-303 *)
Definition sort_desc (l : list etx) : list etx := fold_right insert_desc [] l.
(** TFChainClient.py:474-515 *)
Record uhresult := mkuhr { h_uh : uh; h_txns : list etx; h_multisigs : list uh; h_erc20 : option (uh * bytes * Z) }.
(** TFChainClient.py:576-593 *)
Definition erc20info (resp : json) : res (option (uh * bytes * Z)) :=
  do b <- jin "erc20info" resp;
  if b then
    do i <- jget "erc20info" resp;
    do a <- (do x <- jget "tftaddress" i; uh_from_json H x);
    do e <- (do x <- jget "erc20address" i; eaddr_from_json x);
    do c <- (do x <- jget "confirmations" i; jint x);
    Ok (Some (a, e, c))
  else Ok None.
(** TFChainClient.py:254-307: ; [a]: the text of the address looked up *)
Definition unlockhash_get (a : pystr) (resp : json) : res uhresult :=
  key_error (
    do _ <- hashtype_is "unlockhash" resp;
    do ts <- jget "transactions" resp;
    do l <- jelems ts;
    do xs <- mapM explorer_txn l;
    do ms <- (do l <- jlist_of "multisigaddresses" resp; mapM (uh_from_json H) l);
    do _ <- guard (forallb (fun u => (uh_type u =? 3)%Z) ms) ExplorerInvalidResponse;
    do i <- erc20info resp;
    do u <- uh_from_json H (JStr a);
    Ok (mkuhr u (sort_desc xs) ms i)).

(** ** Balance of an address: 517-569 *)
(** TFChainClient.py:517-541: an address as text, for comparison *)
Definition cond_address (c : cond) : res pystr := do u <- cond_unlockhash H c; uh_str H u.
(** TFChainClient.py:517-541: one transaction *)
Definition parent_of (i : input) : output := match i_out i with Some o => o | None => mkout 0 CNil [] end.
(** TFChainClient.py:517-541 *)
Fixpoint add_matching (address : pystr) (confirmed spent : bool) (b : bal) (os : list output) : res bal :=
  match os with
  | [] => Ok b
  | o :: os =>
      do a <- cond_address (o_cond o);
      do b <- (if listN_eqb a address then output_add H b o confirmed spent else Ok b);
      add_matching address confirmed spent b os
  end.
(** TFChainClient.py:517-541 *)
Definition add_txn (address : pystr) (b : bal) (x : etx) : res bal :=
  do ins <- coin_inputs (e_txn x);
  do b <- add_matching address (negb (e_unconfirmed x)) true b (map parent_of ins);
  add_matching address (negb (e_unconfirmed x)) false b (coin_outputs (e_txn x)).
(** TFChainClient.py:517-541 *)
Fixpoint add_txns (address : pystr) (b : bal) (l : list etx) : res bal :=
  match l with [] => Ok b | x :: l => do b <- add_txn address b x; add_txns address b l end.
(** TFChainWallet.py:1847-1892: the chain context: height, time and id of the last block *)
Definition with_chain (b : bal) (info : option (Z * Z * bytes)) : bal :=
  match info with
  | None => b
  | Some (h, t, k) => mkbal (w_outs b) (w_spent b) (w_unc b) (w_uncspent b) t h k (w_addrs b)
  end.
(** TFChainClient.py:517-541: for an address that is not a multi-signature address *)
Definition address_balance (r : uhresult) (info : option (Z * Z * bytes)) : res bal :=
  do address <- uh_str H (h_uh r);
  do b <- add_txns address bal_new (h_txns r);
  Ok (with_chain b info).
(** TFChainClient.py:543-569: [_multisig_balance]: the owners and the number of signatures of the first matching output, or of the last mint
    definition, which also empties the balance.  [None]: no matching output was seen. *)
Definition multi_of (c : cond) : res (list uh * Z) :=
  match cond_unwrap c with CMulti us n => Ok (us, n) | _ => Err TypeError end.
(** TFChainClient.py:543-569 *)
Definition mbal : Type := (list uh * Z) * bal.
(** TFChainWallet.py:2136-2148 [MultiSigWalletBalance(owners, signature_count)] *)
Definition ms_new (m : list uh * Z) : res mbal :=
  do _ <- guard (1 <=? snd m)%Z ValueError;
  do _ <- guard (snd m <=? Z.of_nat (length (fst m)))%Z ValueError;
  Ok (m, bal_new).
(** TFChainClient.py:543-569 *)
Fixpoint madd_matching (address : pystr) (confirmed spent : bool) (b : option mbal) (os : list output) : res (option mbal) :=
  match os with
  | [] => Ok b
  | o :: os =>
      do a <- cond_address (o_cond o);
      do b <- (if listN_eqb a address then
                 do m <- multi_of (o_cond o);
                 do y <- match b with Some y => Ok y | None => ms_new m end;
                 do x <- output_add H (snd y) o confirmed spent; Ok (Some (fst y, x))
               else Ok b);
      madd_matching address confirmed spent b os
  end.
(** TFChainClient.py:543-569 *)
Definition madd_txn (address : pystr) (b : option mbal) (x : etx) : res (option mbal) :=
  do ins <- coin_inputs (e_txn x);
  do b <- madd_matching address (negb (e_unconfirmed x)) true b (map parent_of ins);
  do b <- madd_matching address (negb (e_unconfirmed x)) false b (coin_outputs (e_txn x));
  match e_txn x with
  | TMint m => match m_new m with
               | MCond (CMulti us n) => do y <- ms_new (us, n); Ok (Some y)
               | MCond _ => Err AttributeError
               | MCoins _ => Ok b
               end
  | _ => Ok b
  end.
(** TFChainClient.py:543-569 *)
Fixpoint madd_txns (address : pystr) (b : option mbal) (l : list etx) : res (option mbal) :=
  match l with [] => Ok b | x :: l => do b <- madd_txn address b x; madd_txns address b l end.
(** TFChainClient.py:517-569: [balance] for a multi-signature address; [None]: an ordinary, empty balance *)
Definition multisig_balance (r : uhresult) (info : option (Z * Z * bytes)) : res (option (list uh * Z) * bal) :=
  do address <- uh_str H (h_uh r);
  do b <- madd_txns address None (h_txns r);
  Ok (match b with Some (m, x) => (Some m, with_chain x info) | None => (None, with_chain bal_new info) end).
(** TFChainClient.py:517-541: [balance] *)
Definition result_balance (r : uhresult) (info : option (Z * Z * bytes)) : res (option (list uh * Z) * bal) :=
  if (uh_type (h_uh r) =? 3)%Z then multisig_balance r info
  else do b <- address_balance r info; Ok (None, b).
End Hash.
