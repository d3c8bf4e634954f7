(** Model of the client's lookups: /repo/tfchain/TFChainClient.py:146-252, 433-434, 683-834.  [transaction_get], [unlockhash_get] and the
    outputs are in Explorer.v; here they are put together with the request they make. *)
From Verif Require Import Base Encoders Currency Primitive Types Conditions Fulfillments ThreeBotTypes Txn TxnJson Wallet Explorer.

(** TFChainClient.py:654-686: [ExplorerBlock] and 655-670 [ExplorerMinerPayout]: ids and addresses are shown as texts by the properties *)
Record payout := mkpayout { p_id : bytes; p_value : N; p_uh : uh }.
(** TFChainClient.py:595-651 *)
Record block := mkblock { k_bid : bytes; k_parent : bytes; k_bheight : Z; k_btime : Z; k_txns : list etx; k_payouts : list payout }.

(** TFChainClient.py:433-434: [_normalize_id] *)
Definition normalize (v : bval) : res pystr := do h <- hash_new v; Ok (hash_str h).
(** TFChainClient.py:156-171: what a block is asked by: an int (a bool is one, for Python) or an id *)
Inductive blockref := ByHeight (h : Z) | ById (v : bval).
(** TFChainClient.py:156-214 *)
Definition text_is (j : json) (s : pystr) : bool := match j with JStr t => listN_eqb t s | _ => false end.

Section Client.
Variable H : bytes -> bytes.
Variable ip_parse : pystr -> res bytes.
Variable now : Z.
(** what the explorers answer to a request for an endpoint: JSON, or the exception [explorer_get] raises *)
Variable net : pystr -> res json.

(** TFChainClient.py:156-214 *)
Definition hashes (id : pystr) : pystr := s2b "/explorer/hashes/" ++ id.

(** TFChainClient.py:193-201: the ids of the payouts, taken by position: from a dict the first one is a KeyError, the same error as a wrong number of ids *)
Definition payout_ids (j : json) : res (list json) :=
  match j with JObj (_ :: _) => Err ExplorerInvalidResponse | _ => jelems j end.
(** TFChainClient.py:193-201 *)
Definition read_payout (x : json * json) : res payout :=
  do id <- hash_from_json (fst x);
  do v <- (do y <- jget "value" (snd x); amt_from_json y);
  do u <- (do y <- jget "unlockhash" (snd x); uh_from_json H y);
  Ok (mkpayout id v u).
(** TFChainClient.py:179-214 *)
Definition block_of (r : json) : res block :=
  do ts <- jget "transactions" r;
  do l <- jelems ts;
  do xs <- mapM (explorer_txn H ip_parse now) l;
  do raw <- jget "rawblock" r;
  do parent <- (do x <- jget "parentid" raw; hash_from_json x);
  do ids <- jget_d "minerpayoutids" JNull r;
  do ps <- jlist_of "minerpayouts" raw;
  do ids <- payout_ids (jor ids (JArr []));
  do _ <- same_length ps ids;
  do pos <- mapM read_payout (combine ids ps);
  do h <- (do x <- jget "height" r; jint x);
  do t <- (do x <- jget "timestamp" raw; jint x);
  do id <- (do x <- jget "blockid" r; hash_from_json x);
  Ok (mkblock id parent h t xs pos).
(** TFChainClient.py:156-214: [block_get] *)
Definition block_get (v : blockref) : res block :=
  key_error (
    match v with
    | ByHeight h =>
        do resp <- net (s2b "/explorer/blocks/" ++ z_str h);
        do r <- jget "block" resp;
        block_of r
    | ById v =>
        do id <- normalize v;
        do resp <- net (hashes id);
        do _ <- hashtype_is "blockid" resp;
        do r <- jget "block" resp;
        do i <- jget "blockid" r;
        do _ <- guard (text_is i id) ExplorerInvalidResponse;
        block_of r
    end).
(** TFChainClient.py:146-154: [blockchain_info_get]: the last block *)
Definition blockchain_info_get : res block :=
  do resp <- net (s2b "/explorer");
  do id <- (do x <- jget "blockid" resp; hash_from_json x);
  block_get (ById (BVData (hash_bd id))).
(** TFChainClient.py:216-235: with its request (the request is made outside of [try]) *)
Definition client_transaction_get (v : bval) : res etx :=
  do id <- normalize v;
  do resp <- net (hashes id);
  transaction_get H ip_parse now id resp.
(** TFChainClient.py:309-332 *)
Definition client_output_get (k : okind) (v : bval) : res (output * etx * option etx) :=
  do id <- normalize v;
  do resp <- net (hashes id);
  output_get H ip_parse now k id resp.

(** TFChainClient.py:237-252: [transaction_put], after the data were accepted (Explorer.v, [post_data]): the id in the answer *)
Definition transaction_put (resp : json) : res pystr :=
  key_error (do x <- jget "transactionid" resp; normalize (jbval x)).

(** ** 683-721 [TFChainMinterClient.condition_get] *)
(** TFChainClient.py:699-712 *)
Inductive heightref := HNone | HInt (z : Z) | HStr (s : pystr) | HOther.
(** TFChainClient.py:699-712 *)
Definition mint_endpoint (h : heightref) : res pystr :=
  let e := s2b "/explorer/mintcondition" in
  match h with
  | HNone => Ok e
  | HInt z => Ok (e ++ 47 :: z_str z)
  | HStr s => do z <- py_int s; Ok (e ++ 47 :: z_str z)
  | HOther => Err TypeError
  end.
(** TFChainClient.py:699-722 *)
Definition mint_condition_get (h : heightref) : res cond :=
  do e <- mint_endpoint h;
  do resp <- net e;
  key_error (do c <- jget "mintcondition" resp; cond_from_json H now c).

(** ** 723-784 [TFChainThreeBotClient.record_get] *)
(** TFChainClient.py:735-748: [RBool] is an int for Python, but printed as a word *)
Inductive botref := RInt (z : Z) | RBool (b : bool) | RName (s : pystr) | RKey (p : pubkey) | RStr (s : pystr) | ROther.
(** TFChainClient.py:829-856 *)
Record record := mkrecord { r_id : Z; r_names : list pystr; r_addrs : list naddr; r_key : pubkey; r_expires : Z }.
(** TFChainClient.py:735-748 *)
Definition bot_endpoint (r : botref) : res pystr :=
  let bot := s2b "/explorer/3bot/" in
  let whois := s2b "/explorer/whois/3bot/" in
  match r with
  | RInt z => Ok (bot ++ z_str z)
  | RBool b => Ok (bot ++ if b then s2b "True" else s2b "False")
  | RName s => Ok (whois ++ s)
  | RKey p => Ok (bot ++ pk_str p)
  | RStr s => if re_match botname_re s then Ok (whois ++ s) else do _ <- pk_from_json (JStr s); Ok (bot ++ s)
  | ROther => Err TypeError
  end.
(** TFChainClient.py:749-780: [record.get(k, []) or []], to be iterated over *)
Definition record_of (r : json) : res record :=
  do id <- (do x <- jget "id" r; jint x);
  do ns <- (do l <- jlist_of "names" r; mapM bn_from_json l);
  do as_ <- (do l <- jlist_of "addresses" r; mapM (na_from_json ip_parse) l);
  do k <- (do x <- jget "publickey" r; pk_from_json x);
  do e <- (do x <- jget "expiration" r; jint x);
  Ok (mkrecord id ns as_ k e).
(** TFChainClient.py:735-780 *)
Definition record_get (b : botref) : res record :=
  do e <- bot_endpoint b;
  do resp <- match net e with Err ExplorerNoContent => Err ThreeBotNotFound | r => r end;
  key_error (do r <- jget "record" resp; record_of r).

(** ** 786-834 [TFChainERC20Client.address_get] *)
(** TFChainClient.py:793-803 *)
Inductive uhref := UStr (s : pystr) | UHash (u : uh) | UOther.
(** TFChainClient.py:793-827 *)
Definition erc20_address_get (r : uhref) : res (uh * bytes * Z) :=
  do u <- match r with UStr s => uh_from_json H (JStr s) | UHash u => Ok u | UOther => Err TypeError end;
  do _ <- guard (uh_type u =? 1)%Z TypeError;
  do s <- uh_str H u;
  do resp <- net (hashes s);
  key_error (
    do _ <- hashtype_is "unlockhash" resp;
    do i <- erc20info H resp;
    match i with Some x => Ok x | None => Err ExplorerNoContent end).
End Client.
