(** Model of the JSON form of transactions: /repo/tfchain/types/transactions/*.py ([json], [from_json]),
    /repo/tfchain/types/IO.py and transactions/Transactions.py. *)
From Verif Require Import Base Encoders Currency Primitive Types Conditions Fulfillments ThreeBotTypes Txn.

(** ** Python fragments on JSON values *)
(** Python builtin, used in types/transactions/ERC20.py:192-216 *)
Fixpoint prefix_of (a b : list N) : bool :=
  match a, b with
  | [], _ => true
  | x :: a, y :: b => (x =? y) && prefix_of a b
  | _ :: _, [] => false
  end.
(** Python builtin, used in types/transactions/ERC20.py:192-216: [a in b] of str *)
Fixpoint substring (a b : list N) : bool :=
  prefix_of a b || match b with [] => false | _ :: b => substring a b end.
(** Python builtin, used in types/transactions/ERC20.py:192-216: [key in value]: a key of a dict, an element of a list, a part of a str *)
Definition jin (k : string) (j : json) : res bool :=
  match j with
  | JObj _ => Ok (jhas k j)
  | JArr l => Ok (existsb (fun x => match x with JStr s => listN_eqb s (s2b k) | _ => false end) l)
  | JStr s => Ok (substring (s2b k) s)
  | _ => Err TypeError
  end.
(** Python builtin, used in types/transactions/Standard.py:302-314: [value or default] *)
Definition jor (j d : json) : json := if jtruthy j then j else d.
(** types/transactions/ERC20.py:192-216: [f(data[key]) if key in data else default] *)
Definition jopt {A} (k : string) (f : json -> res A) (d : A) (data : json) : res A :=
  do b <- jin k data;
  if b then do v <- jget k data; f v else Ok d.
(** types/transactions/ERC20.py:192-216: a value that is there *)
Definition jsome {A} (f : json -> res A) (j : json) : res (option A) := do a <- f j; Ok (Some a).
(** types/transactions/Standard.py:302-314: [[f(x) for x in data.get(key, []) or []]] *)
Definition jlist {A} (k : string) (f : json -> res A) (data : json) : res (list A) :=
  do v <- jget_d k (JArr []) data; do l <- jelems (jor v (JArr [])); mapM f l.
(** types/transactions/ThreeBot.py:382-401: [int(data.get(key, 0) or 0)] *)
Definition jint0 (k : string) (data : json) : res Z := do v <- jget_d k (JNum 0) data; jint (jor v (JNum 0)).

(** ** Amounts *)
(** types/PrimitiveTypes.py:331-332 for an amount in units ([coin_amount_json] in TxnFacts.v) *)
Definition amt_json (n : N) : json := JStr (dec_str n).
(** types/PrimitiveTypes.py:190-199; the amount in units of the parsed Currency *)
Definition amt_from_json (j : json) : res N := do c <- cfrom_json j; do z <- cint c; Ok (Z.to_N z).

(** types/PrimitiveTypes.py:99-100 with [strencoding='base64'] *)
Definition b64_json (b : bytes) : json := JStr (b64enc b).
(** types/PrimitiveTypes.py:54-61 with [strencoding='base64'] *)
Definition b64_from_json (j : json) : res bytes :=
  do d <- bd_from_json j None (Some (s2b "base64")); Ok (bd_val d).
(** types/transactions/Standard.py:302-314: [BinaryData.from_json(data.get('arbitrarydata', None) or '', strencoding='base64')] *)
Definition arbitrary_from_json (data : json) : res bytes :=
  do v <- jget_d "arbitrarydata" JNull data; b64_from_json (jor v (JStr [])).

Section Hash.
Variable H : bytes -> bytes.
Variable ip_parse : pystr -> res bytes.
Variable ip_str : bytes -> pystr.
Variable now : Z.

(** ** Inputs and outputs *)
(** types/IO.py:78-82, 265-269 *)
Definition in_json (i : input) : json :=
  JObj [("parentid"%string, JStr (hash_str (i_parent i))); ("fulfillment"%string, ff_json (i_ff i))].
(** types/IO.py:22-26, 209-213; [out]: the parent output the constructor leaves behind, none for a coin input (13-20, 68-76), the
    default one for a block stake input (200-207, 255-263) *)
Definition in_from_json (out : option output) (j : json) : res input :=
  do p <- (do x <- jget "parentid" j; hash_from_json x);
  do f <- (do x <- jget "fulfillment" j; ff_from_json x);
  Ok (mkin p f out).
(** types/IO.py:22-26 *)
Definition cin_from_json : json -> res input := in_from_json None.
(** types/IO.py:209-213 *)
Definition bin_from_json : json -> res input := in_from_json (Some out_default).
(** types/IO.py:176-180, 363-367 *)
Definition out_json (o : output) : res json :=
  do c <- cond_json H (o_cond o);
  Ok (JObj [("value"%string, amt_json (o_value o)); ("condition"%string, c)]).
(** types/IO.py:134-138; no id *)
Definition cout_from_json (j : json) : res output :=
  do v <- (do x <- jget "value" j; amt_from_json x);
  do c <- (do x <- jget "condition" j; cond_from_json H now x);
  Ok (mkout v c []).
(** types/IO.py:321-325 *)
Definition bout_from_json (j : json) : res output :=
  do v <- (do x <- jget "value" j; bsfrom_json x);
  do c <- (do x <- jget "condition" j; cond_from_json H now x);
  Ok (mkout v c []).
(** types/transactions/Standard.py:316-329 *)
Definition outs_json (os : list output) : res json := do l <- mapM out_json os; Ok (JArr l).

(** ** [_json_data_object] *)
(** types/transactions/ERC20.py:218-227: the entries of [output['refundcoinoutput'] = ...] if there is a refund *)
Definition refund_json (o : option output) : res (list (string * json)) :=
  match o with None => Ok [] | Some x => do j <- out_json x; Ok [("refundcoinoutput"%string, j)] end.
(** types/transactions/Standard.py:316-329: [if not obj[key]: del obj[key]] *)
Definition drop_empty (l : list (string * json)) : list (string * json) := filter (fun kv => jtruthy (snd kv)) l.
(** types/transactions/ThreeBot.py:403-421: [output[key] = ...] unless the list is empty *)
Definition opt_list (k : string) (l : list json) : list (string * json) :=
  match l with [] => [] | _ => [(k, JArr l)] end.
(** types/transactions/ThreeBot.py:823-862 *)
Definition opt_dict (k : string) (l : list (string * json)) : list (string * json) :=
  match l with [] => [] | _ => [(k, JObj l)] end.
(** types/ThreeBot.py:187-188 *)
Definition na_json (a : naddr) : json := JStr (na_str ip_str a).
(** types/ThreeBot.py:269-270 *)
Definition bn_json (s : pystr) : json := JStr s.
(** types/transactions/Standard.py:316-329; Minting.py:179-186, 373-380; ERC20.py:218-227, 397-404, 650-664; ThreeBot.py:403-421, 823-862,
    1217-1233.  The public key and signature of a 3Bot registration are not read through their getters. *)
Definition data_json (t : txn) : res json :=
  match t with
  | T1 t =>
      do co <- outs_json (s_cout t);
      do bo <- outs_json (s_bout t);
      Ok (JObj (drop_empty [
        ("coininputs"%string, JArr (map in_json (s_cin t))); ("coinoutputs"%string, co);
        ("blockstakeinputs"%string, JArr (map in_json (s_bin t))); ("blockstakeoutputs"%string, bo);
        ("minerfees"%string, JArr (map amt_json (s_fees t))); ("arbitrarydata"%string, b64_json (s_data t))]))
  | TMint t =>
      do new <- match m_new t with
                | MCond c => do j <- cond_json H c; Ok ("mintcondition"%string, j)
                | MCoins os => do j <- outs_json os; Ok ("coinoutputs"%string, j)
                end;
      Ok (JObj [
        ("nonce"%string, b64_json (m_nonce t));
        ("mintfulfillment"%string, ff_json (match m_ff t with Some f => f | None => FSingle pk_default None end));
        new; ("minerfees"%string, JArr (map amt_json (m_fees t))); ("arbitrarydata"%string, b64_json (m_data t))])
  | T208 t =>
      do r <- refund_json (c_refund t);
      Ok (JObj ([
        ("address"%string, prefixed_json (c_addr t)); ("value"%string, amt_json (c_value t));
        ("coininputs"%string, JArr (map in_json (c_cin t))); ("txfee"%string, amt_json (fee (c_fee t)))] ++ r))
  | T209 t =>
      do a <- uh_str H (g_addr t);
      Ok (JObj [
        ("address"%string, JStr a); ("value"%string, amt_json (g_value t)); ("txfee"%string, amt_json (fee (g_fee t)));
        ("blockid"%string, prefixed_json (g_block t)); ("txid"%string, prefixed_json (g_txid t))])
  | T210 t =>
      do u <- pk_unlockhash H (opk (r_pk t));
      do e <- eaddr_from_uh H u;
      do a <- uh_str H u;
      do cin <- got (r_cin t);
      do r <- refund_json (r_refund t);
      Ok (JObj ([
        ("pubkey"%string, JStr (pk_str (opk (r_pk t)))); ("tftaddress"%string, JStr a);
        ("erc20address"%string, prefixed_json e);
        ("signature"%string, JStr (hex (match r_sig t with Some (_, s) => s | None => [] end)));
        ("regfee"%string, amt_json REG_FEE); ("txfee"%string, amt_json (fee (r_fee t)));
        ("coininputs"%string, JArr (map in_json cin))] ++ r))
  | T144 t =>
      do pk <- match b_pk t with Some p => Ok (pk_str p) | None => Err AttributeError end;
      do sg <- match b_sig t with Some (_, s) => Ok (hex s) | None => Err AttributeError end;
      do r <- refund_json (b_refund t);
      Ok (JObj ([
        ("nrofmonths"%string, JNum (b_months t)); ("txfee"%string, amt_json (fee (b_fee t)));
        ("coininputs"%string, JArr (map in_json (b_cin t)));
        ("identification"%string, JObj [("publickey"%string, JStr pk); ("signature"%string, JStr sg)])]
        ++ opt_list "addresses" (map na_json (b_addrs t)) ++ opt_list "names" (map bn_json (b_names t)) ++ r))
  | T145 t =>
      do r <- refund_json (u_refund t);
      Ok (JObj ([
        ("id"%string, JNum (u_id t)); ("nrofmonths"%string, JNum (u_months t));
        ("txfee"%string, amt_json (fee (u_fee t))); ("coininputs"%string, JArr (map in_json (u_cin t)));
        ("signature"%string, JStr (hex (match u_sig t with Some (_, s) => s | None => [] end)))]
        ++ opt_dict "addresses" (opt_list "add" (map na_json (u_addr_add t)) ++ opt_list "remove" (map na_json (u_addr_del t)))
        ++ opt_dict "names" (opt_list "add" (map bn_json (u_name_add t)) ++ opt_list "remove" (map bn_json (u_name_del t)))
        ++ r))
  | T146 t =>
      do cin <- got (n_cin t);
      do r <- refund_json (n_refund t);
      Ok (JObj ([
        ("sender"%string, JObj [("id"%string, JNum (n_sender t));
           ("signature"%string, JStr (hex (match n_ssig t with Some (_, s) => s | None => [] end)))]);
        ("receiver"%string, JObj [("id"%string, JNum (n_receiver t));
           ("signature"%string, JStr (hex (match n_rsig t with Some (_, s) => s | None => [] end)))]);
        ("names"%string, JArr (map bn_json (n_names t))); ("txfee"%string, amt_json (fee (n_fee t)));
        ("coininputs"%string, JArr (map in_json cin))] ++ r))
  end.
(** types/transactions/Base.py:197-202 [json]: the version is the TransactionVersion object itself; [data] is left out if it is empty *)
Definition txn_json (t : txn) : res json :=
  do d <- data_json t;
  Ok (JObj (("version"%string, JVersion (version t)) :: if jtruthy d then [("data"%string, d)] else [])).

(** ** [_from_json_data_object] *)
(** types/transactions/Standard.py:302-314 *)
Definition std_from_json (data : json) : res tx_std :=
  do ci <- jlist "coininputs" cin_from_json data;
  do co <- jlist "coinoutputs" cout_from_json data;
  do bi <- jlist "blockstakeinputs" bin_from_json data;
  do bo <- jlist "blockstakeoutputs" bout_from_json data;
  do fs <- jlist "minerfees" amt_from_json data;
  do a <- arbitrary_from_json data;
  Ok (mkstd false ci co bi bo fs a).
(** types/transactions/Minting.py:167-177 *)
Definition mintdef_from_json (data : json) : res tx_mint :=
  do n <- (do x <- jget_d "nonce" (JStr []) data; b64_from_json x);
  do c <- (do x <- jget_d "mintcondition" (JObj []) data; cond_from_json H now x);
  do f <- (do x <- jget_d "mintfulfillment" (JObj []) data; ff_from_json x);
  do fs <- jlist "minerfees" amt_from_json data;
  do a <- arbitrary_from_json data;
  Ok (mkmint (Some f) (MCond c) fs a n None).
(** types/transactions/Minting.py:361-371 *)
Definition mintcoins_from_json (data : json) : res tx_mint :=
  do n <- (do x <- jget_d "nonce" (JStr []) data; b64_from_json x);
  do f <- (do x <- jget_d "mintfulfillment" (JObj []) data; ff_from_json x);
  do os <- jlist "coinoutputs" cout_from_json data;
  do fs <- jlist "minerfees" amt_from_json data;
  do a <- arbitrary_from_json data;
  Ok (mkmint (Some f) (MCoins os) fs a n None).
(** types/transactions/ERC20.py:192-216; an absent address or value is the default its getter returns (28-32, 41-45) *)
Definition conv_from_json (data : json) : res tx_conv :=
  do a <- jopt "address" eaddr_from_json [] data;
  do v <- jopt "value" amt_from_json 0 data;
  do f <- jopt "txfee" (jsome amt_from_json) None data;
  do ci <- jlist "coininputs" cin_from_json data;
  do r <- jopt "refundcoinoutput" (jsome cout_from_json) None data;
  Ok (mkconv a v f ci r).
(** types/transactions/ERC20.py:370-395; defaults 246-250, 262-266, 275-279, 307-311 *)
Definition gen_from_json (data : json) : res tx_gen :=
  do a <- jopt "address" (uh_from_json H) uh_default data;
  do v <- jopt "value" amt_from_json 0 data;
  do f <- jopt "txfee" (jsome amt_from_json) None data;
  do b <- jopt "blockid" ehash_from_json [] data;
  do i <- jopt "txid" ehash_from_json [] data;
  Ok (mkgen a v f b i).
(** a signature read with [ED25519Signature.from_json], not marked as array (FulfillmentTypes.py:68-74) *)
Definition slice_sig (j : json) : res (bool * bytes) := do s <- sig_from_json j; Ok (false, s).
(** types/transactions/ERC20.py:619-648; 526-532: the registration fee is compared with 10 TFT *)
Definition reg_from_json (data : json) : res tx_reg :=
  do p <- jopt "pubkey" (jsome pk_from_json) None data;
  do s <- jopt "signature" (jsome slice_sig) None data;
  do _ <- jopt "regfee" (fun j => do f <- amt_from_json j; guard (f =? REG_FEE) ValueError) tt data;
  do f <- jopt "txfee" (jsome amt_from_json) None data;
  do ci <- jlist "coininputs" cin_from_json data;
  do r <- jopt "refundcoinoutput" (jsome cout_from_json) None data;
  Ok (mkreg p s f (Some ci) r).
(** types/transactions/ThreeBot.py:395-401; a value equal to None or {} counts as absent *)
Definition ident_from_json (j : json) : res (option pubkey * bsig) :=
  match j with
  | JNull | JObj [] => Ok (None, None)
  | _ =>
      do p <- (do x <- jget "publickey" j; pk_from_json x);
      do s <- (do x <- jget "signature" j; sig_from_json x);
      Ok (Some p, Some (true, s))
  end.
(** types/transactions/ThreeBot.py:382-401 *)
Definition bot_from_json (data : json) : res tx_bot :=
  do ads <- jlist "addresses" (na_from_json ip_parse) data;
  do ns <- jlist "names" bn_from_json data;
  do m <- jint0 "nrofmonths" data;
  do f <- jopt "txfee" (jsome amt_from_json) None data;
  do ci <- jlist "coininputs" cin_from_json data;
  do r <- jopt "refundcoinoutput" (jsome cout_from_json) None data;
  do i <- jopt "identification" ident_from_json (None, None) data;
  Ok (mkbot ads ns m f ci r (fst i) (snd i)).
(** types/transactions/ThreeBot.py:803-821: [ED25519Signature.from_json(data.get('signature', None) or None)] *)
Definition sig_or_none (data : json) : res bsig :=
  do v <- jget_d "signature" JNull data; jsome slice_sig (jor v JNull).
(** types/transactions/ThreeBot.py:803-821 *)
Definition upd_from_json (data : json) : res tx_upd :=
  do id <- jint0 "id" data;
  do ads <- (do x <- jget_d "addresses" (JObj []) data; Ok (jor x (JObj [])));
  do aa <- jlist "add" (na_from_json ip_parse) ads;
  do ar <- jlist "remove" (na_from_json ip_parse) ads;
  do ns <- (do x <- jget_d "names" (JObj []) data; Ok (jor x (JObj [])));
  do na <- jlist "add" bn_from_json ns;
  do nr <- jlist "remove" bn_from_json ns;
  do m <- jint0 "nrofmonths" data;
  do f <- jopt "txfee" (jsome amt_from_json) None data;
  do ci <- jlist "coininputs" cin_from_json data;
  do r <- jopt "refundcoinoutput" (jsome cout_from_json) None data;
  do s <- sig_or_none data;
  Ok (mkupd id aa ar na nr m f ci r s None).
(** types/transactions/ThreeBot.py:1186-1201 *)
Definition party_from_json (j : json) : res (Z * bsig) := do i <- jint0 "id" j; do s <- sig_or_none j; Ok (i, s).
(** types/transactions/ThreeBot.py:1185-1215 *)
Definition name_from_json (data : json) : res tx_name :=
  do s <- jopt "sender" party_from_json (0%Z, None) data;
  do r <- jopt "receiver" party_from_json (0%Z, None) data;
  do ns <- jlist "names" bn_from_json data;
  do f <- jopt "txfee" (jsome amt_from_json) None data;
  do ci <- jlist "coininputs" cin_from_json data;
  do o <- jopt "refundcoinoutput" (jsome cout_from_json) None data;
  Ok (mkname (fst s) (fst r) ns f (Some ci) o (snd s) (snd r) None None).

(** ** Legacy (version 0): types/transactions/Standard.py:22-103 *)
(** types/transactions/Standard.py:22-103 *)
Definition legacy_in_from_json (out : option output) (j : json) : res input :=
  do u <- jget_d "unlocker" (JObj []) j;
  do pid <- jget_d "parentid" (JStr []) j;
  do pk <- (do c <- jget_d "condition" (JObj []) u; jget_d "publickey" JNull c);
  do sg <- (do c <- jget_d "fulfillment" (JObj []) u; jget_d "signature" JNull c);
  in_from_json out (JObj [("parentid"%string, pid);
    ("fulfillment"%string, JObj [("type"%string, JNum 1);
       ("data"%string, JObj [("publickey"%string, pk); ("signature"%string, sg)])])]).
(** types/transactions/Standard.py:22-103 *)
Definition legacy_out_from_json (parse : json -> res output) (j : json) : res output :=
  do v <- jget_d "value" (JStr (s2b "0")) j;
  do a <- jget_d "unlockhash" (JStr []) j;
  parse (JObj [("value"%string, v);
    ("condition"%string, JObj [("type"%string, JNum 1); ("data"%string, JObj [("unlockhash"%string, a)])])]).
(** types/transactions/Standard.py:22-103: [if key in data: for x in (data[key] or []): ...] *)
Definition legacy_list {A} (k : string) (f : json -> res A) (data : json) : res (list A) :=
  jopt k (fun v => do l <- jelems (jor v (JArr [])); mapM f l) [] data.
(** types/transactions/Standard.py:22-103 [legacy_from_json] *)
Definition legacy_from_json (obj : json) : res txn :=
  do has <- jin "data" obj;
  do _ <- guard has ValueError;
  do data <- jget "data" obj;
  do ci <- legacy_list "coininputs" (legacy_in_from_json None) data;
  do co <- legacy_list "coinoutputs" (legacy_out_from_json cout_from_json) data;
  do bi <- legacy_list "blockstakeinputs" (legacy_in_from_json (Some out_default)) data;
  do bo <- legacy_list "blockstakeoutputs" (legacy_out_from_json bout_from_json) data;
  do fs <- legacy_list "minerfees" amt_from_json data;
  do a <- (do b <- jin "arbitrarydata" data; if b then arbitrary_from_json data else Ok []);
  Ok (T1 (mkstd true ci co bi bo fs a)).

(** ** Dispatch: types/transactions/Transactions.py:64-103 and types/transactions/Base.py:53-64.  Without text: [obj] is what [json_loads] returned, or the
    dictionary given. *)
(** types/transactions/Transactions.py:64-103 *)
Definition txn_of_version (v : Z) (data : json) : option (res txn) :=
  if (v =? 1)%Z then Some (rmap T1 (std_from_json data))
  else if (v =? 144)%Z then Some (rmap T144 (bot_from_json data))
  else if (v =? 145)%Z then Some (rmap T145 (upd_from_json data))
  else if (v =? 146)%Z then Some (rmap T146 (name_from_json data))
  else if (v =? 208)%Z then Some (rmap T208 (conv_from_json data))
  else if (v =? 209)%Z then Some (rmap T209 (gen_from_json data))
  else if (v =? 210)%Z then Some (rmap T210 (reg_from_json data))
  else if (v =? 128)%Z then Some (rmap TMint (mintdef_from_json data))
  else if (v =? 129)%Z then Some (rmap TMint (mintcoins_from_json data))
  else None.
(** types/transactions/Base.py:21-24, Transactions.py:64-103: the number a version compares equal to, if any *)
Definition version_of (j : json) : option Z :=
  match j with
  | JNum z | JVersion z => Some z
  | JBool b => Some (if b then 1 else 0)%Z
  | _ => None
  end.
(** types/transactions/Transactions.py:64-103 [from_json] *)
Definition txn_from_json (obj : json) : res txn :=
  match obj with
  | JObj _ =>
      do tv <- jget_d "version" (JNum (-1)) obj;
      match version_of tv with
      | None => Err UnknownTransactionVersion
      | Some v =>
          if (v =? 0)%Z then legacy_from_json obj
          else do data <- jget_d "data" (JObj []) obj;
               match txn_of_version v data with Some r => r | None => Err UnknownTransactionVersion end
      end
  | _ => Err TypeError
  end.

End Hash.

(** ** Identity and equality: types/transactions/Base.py:85-107.  A transaction object is its data and its id ([None] before one is assigned);
    parsing always assigns one (Transactions.py:99-101), by default the empty Hash. *)
(** types/transactions/Base.py:85-96 *)
Definition txobj : Type := txn * option bytes.
(** types/transactions/Base.py:92-96, the [id] setter *)
Definition id_set (x : txobj) (v : bval) : res txobj := do h <- hash_new v; Ok (fst x, Some h).
(** types/transactions/Base.py:85-90 *)
Definition id_str (x : txobj) : pystr := match snd x with Some h => hash_str h | None => s2b "None" end.
(** types/transactions/Base.py:98-101; the name json_dumps is not defined in that module.  [shash] is Python's hash of a str. *)
Definition txn_hash (shash : pystr -> Z) (x : txobj) : res Z :=
  match snd x with None => Err NameError | Some h => Ok (shash (hash_str h)) end.
(** types/transactions/Base.py:103-107 *)
Definition txn_eq (shash : pystr -> Z) (x y : txobj) : res bool :=
  do a <- txn_hash shash x; do b <- txn_hash shash y; Ok (a =? b)%Z.
(** types/transactions/Transactions.py:64-103 with an id *)
Definition txn_parse (H : bytes -> bytes) (ip_parse : pystr -> res bytes) (now : Z) (obj : json) (id : bval) : res txobj :=
  do t <- txn_from_json H ip_parse now obj; id_set (t, None) id.

(** ** The data setter: types/transactions/Standard.py:214-226, Minting.py:48-60, 240-252 *)
(** types/transactions/Standard.py:214-226, Minting.py:48-60, 240-252 *)
Definition data_set (v : bval) : res bytes :=
  match v with
  | BVNone => Ok []
  | BVData d => do _ <- guard (lenN (bd_val d) <=? 83) ValueError; Ok (bd_val d)
  | BVStr s => do b <- utf8 s; do _ <- guard (lenN b <=? 83) ValueError; Ok b
  | BVBytes b => do _ <- guard (lenN b <=? 83) ValueError; Ok b
  | BVOther => Err TypeError
  end.
