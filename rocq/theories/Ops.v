(** Model of the editing of 3Bot transactions and their fees, /repo/tfchain/types/transactions/ThreeBot.py, and of the
    operations of a wallet that build, sign and hand over a transaction, /repo/tfchain/TFChainWallet.py. *)
From Verif Require Import Base Encoders Currency Primitive Types Conditions Fulfillments ThreeBotTypes Txn TxnSign Wallet.

(** ** Editing 3Bot transactions *)
(** The adders types/transactions/ThreeBot.py:209-216, 232-239, 570-577, 593-600, 616-623, 639-646, 1015-1022 applied to a list of values:
    the list afterwards, and the outcome.  A full list raises a plain Exception (here RuntimeError); on an exception the
    values added before stay. *)
Fixpoint add_all {X A} (max : nat) (mk : X -> res A) (vs : list X) (l : list A) : list A * res unit :=
  match vs with
  | [] => (l, Ok tt)
  | v :: vs =>
      if (length l =? max)%nat then (l, Err RuntimeError)
      else match mk v with Err e => (l, Err e) | Ok a => add_all max mk vs (l ++ [a]) end
  end.
(** types/transactions/ThreeBot.py:201-207, 224-230, 562-568, 585-591, 608-614, 631-637, 1007-1013: the setters: the list is emptied first *)
Definition given_all {X} (o : option (list X)) : list X := match o with Some l => l | None => [] end.
(** types/transactions/ThreeBot.py:21 *)
Definition MAX_NAMES : nat := 5.
(** types/transactions/ThreeBot.py:22 *)
Definition MAX_ADDRESSES : nat := 10.

(** types/transactions/ThreeBot.py:201-239, 562-646, 1007-1022: An assignment or a call of an adder; values are None or a text. *)
Inductive edit :=
| EMonths (n : Z) | EBotId (i : option Z) | EReceiver (i : option Z)
| EAddr (v : option pystr) | EAddrs (o : option (list (option pystr)))
| EAddrDel (v : option pystr) | EAddrsDel (o : option (list (option pystr)))
| EName (v : option pystr) | ENames (o : option (list (option pystr)))
| ENameDel (v : option pystr) | ENamesDel (o : option (list (option pystr))).

(** new transactions: ThreeBot.py:105-115, 445-458, 887-899, ERC20.py:15-22, 414-423 *)
Definition registration_new : txn := T144 (mkbot [] [] 0 None [] None None None).
(** types/transactions/ThreeBot.py:445-458 *)
Definition update_new : txn := T145 (mkupd 0 [] [] [] [] 0 None [] None None None).
(** types/transactions/ThreeBot.py:887-899 *)
Definition transfer_new : txn := T146 (mkname 0 0 [] None None None None None None None).
(** types/transactions/ERC20.py:414-423 *)
Definition address_registration_new : txn := T210 (mkreg None None None None None).

Section IP.
Variable ip_parse : pystr -> res bytes.   (* see ThreeBotTypes.v *)
Notation na := (na_new ip_parse).
(** types/transactions/ThreeBot.py:488-497, 917-926, 933-942: a bot id; None is stored as such and read as 0 *)
Definition bot_id (i : option Z) : res Z :=
  match i with None => Ok 0%Z | Some z => do _ <- guard (1 <=? z)%Z ValueError; Ok z end.
(** types/transactions/ThreeBot.py:201-239 *)
Definition edit_bot (b : tx_bot) (e : edit) : tx_bot * res unit :=
  let addrs l := mkbot l (b_names b) (b_months b) (b_fee b) (b_cin b) (b_refund b) (b_pk b) (b_sig b) in
  let names l := mkbot (b_addrs b) l (b_months b) (b_fee b) (b_cin b) (b_refund b) (b_pk b) (b_sig b) in
  match e with
  | EMonths n =>   (* 262-267 *)
      if ((n <? 1) || (24 <? n))%Z then (b, Err ValueError)
      else (mkbot (b_addrs b) (b_names b) n (b_fee b) (b_cin b) (b_refund b) (b_pk b) (b_sig b), Ok tt)
  | EAddr v => let '(l, r) := add_all MAX_ADDRESSES na [v] (b_addrs b) in (addrs l, r)
  | EAddrs o => let '(l, r) := add_all MAX_ADDRESSES na (given_all o) [] in (addrs l, r)
  | EName v => let '(l, r) := add_all MAX_NAMES bn_new [v] (b_names b) in (names l, r)
  | ENames o => let '(l, r) := add_all MAX_NAMES bn_new (given_all o) [] in (names l, r)
  | _ => (b, Err AttributeError)
  end.
(** types/transactions/ThreeBot.py:562-646 *)
Definition edit_upd (u : tx_upd) (e : edit) : tx_upd * res unit :=
  let set i aa ad na nd m := mkupd i aa ad na nd m (u_fee u) (u_cin u) (u_refund u) (u_sig u) (u_parent u) in
  let i := u_id u in let aa := u_addr_add u in let ad := u_addr_del u in
  let nn := u_name_add u in let nd := u_name_del u in let m := u_months u in
  match e with
  | EMonths n => if ((n <? 0) || (24 <? n))%Z then (u, Err ValueError) else (set i aa ad nn nd n, Ok tt)   (* 669-674 *)
  | EBotId v => match bot_id v with Ok z => (set z aa ad nn nd m, Ok tt) | Err x => (u, Err x) end
  | EAddr v => let '(l, r) := add_all MAX_ADDRESSES na [v] aa in (set i l ad nn nd m, r)
  | EAddrs o => let '(l, r) := add_all MAX_ADDRESSES na (given_all o) [] in (set i l ad nn nd m, r)
  | EAddrDel v => let '(l, r) := add_all MAX_ADDRESSES na [v] ad in (set i aa l nn nd m, r)
  | EAddrsDel o => let '(l, r) := add_all MAX_ADDRESSES na (given_all o) [] in (set i aa l nn nd m, r)
  | EName v => let '(l, r) := add_all MAX_NAMES bn_new [v] nn in (set i aa ad l nd m, r)
  | ENames o => let '(l, r) := add_all MAX_NAMES bn_new (given_all o) [] in (set i aa ad l nd m, r)
  | ENameDel v => let '(l, r) := add_all MAX_NAMES bn_new [v] nd in (set i aa ad nn l m, r)
  | ENamesDel o => let '(l, r) := add_all MAX_NAMES bn_new (given_all o) [] in (set i aa ad nn l m, r)
  | _ => (u, Err AttributeError)
  end.
(** types/transactions/ThreeBot.py:1007-1022 *)
Definition edit_name (t : tx_name) (e : edit) : tx_name * res unit :=
  let set s v l := mkname s v l (n_fee t) (n_cin t) (n_refund t) (n_ssig t) (n_rsig t) (n_spk t) (n_rpk t) in
  match e with
  | EBotId v => match bot_id v with Ok z => (set z (n_receiver t) (n_names t), Ok tt) | Err x => (t, Err x) end
  | EReceiver v => match bot_id v with Ok z => (set (n_sender t) z (n_names t), Ok tt) | Err x => (t, Err x) end
  | EName v => let '(l, r) := add_all MAX_NAMES bn_new [v] (n_names t) in (set (n_sender t) (n_receiver t) l, r)
  (* 1006-1013: the setter empties another attribute, so the names are added to the present ones *)
  | ENames o => let '(l, r) := add_all MAX_NAMES bn_new (given_all o) (n_names t) in (set (n_sender t) (n_receiver t) l, r)
  | _ => (t, Err AttributeError)
  end.
(** types/transactions/ThreeBot.py:201-239, 562-646, 1007-1022 *)
Definition edit_txn (t : txn) (e : edit) : txn * res unit :=
  match t with
  | T144 b => let '(b, r) := edit_bot b e in (T144 b, r)
  | T145 u => let '(u, r) := edit_upd u e in (T145 u, r)
  | T146 n => let '(n, r) := edit_name n e in (T146 n, r)
  | _ => (t, Err AttributeError)
  end.
(** types/transactions/ThreeBot.py:201-239, 562-646, 1007-1022: edits in a row, stopping at the first exception *)
Fixpoint edits (t : txn) (es : list edit) : res txn :=
  match es with [] => Ok t | e :: es => match edit_txn t e with (t, Ok _) => edits t es | (_, Err x) => Err x end end.
End IP.

(** ** Fees of 3Bot transactions *)
(** types/transactions/ThreeBot.py:16-19 *)
Definition FEE_ADDRESSES : res currency := cset (CIStr (s2b "20 TFT")).
(** types/transactions/ThreeBot.py:16-19 *)
Definition FEE_NAME : res currency := cset (CIStr (s2b "50 TFT")).
(** types/transactions/ThreeBot.py:16-19 *)
Definition FEE_REGISTRATION : res currency := cset (CIStr (s2b "90 TFT")).
(** types/transactions/ThreeBot.py:16-19 *)
Definition FEE_MONTH : res currency := cset (CIStr (s2b "10 TFT")).
(** types/transactions/ThreeBot.py:27-38: [compute_monthly_bot_fees]; the floats 0.7 and 0.5 are printed as such *)
Definition monthly_fees (months : Z) : res currency :=
  do m <- FEE_MONTH; do f <- cmul m (COInt months);
  if (months <? 12)%Z then Ok f
  else if (months <? 24)%Z then cmul f (COFloat (s2b "0.7")) else cmul f (COFloat (s2b "0.5")).
(** types/transactions/ThreeBot.py:121-136, 464-481, 905-910: [required_bot_fees] *)
Definition name_fees (n : Z) : res currency := do f <- FEE_NAME; cmul f (COInt n).
(** Currency addition, types/PrimitiveTypes.py:232-236, as used by types/transactions/ThreeBot.py:121-136 *)
Definition plus (a b : res currency) : res currency := do x <- a; do y <- b; cadd x (COCur y).
(** types/transactions/ThreeBot.py:121-136, 464-481, 905-910 *)
Definition required_bot_fees (t : txn) : res currency :=
  match t with
  | T144 b =>
      let n := Z.of_nat (length (b_names b)) in
      let f := plus (do r <- FEE_REGISTRATION; cadd r (COInt 0)) (monthly_fees (b_months b)) in
      if (1 <? n)%Z then plus f (name_fees (n - 1)) else f
  | T145 u =>
      let n := Z.of_nat (length (u_name_add u)) in
      let f := cset (CIInt 0) in
      let f := if (0 <? u_months u)%Z then plus f (monthly_fees (u_months u)) else f in
      let f := if nonempty (u_addr_add u) || nonempty (u_addr_del u) then plus f FEE_ADDRESSES else f in
      if (0 <? n)%Z then plus f (name_fees n) else f
  | T146 t => name_fees (Z.of_nat (length (n_names t)))
  | _ => Err AttributeError
  end.
(** types/transactions/ThreeBot.py:121-136, 464-481, 905-910: an amount in smallest units *)
Definition in_units (c : currency) : N := scaled9 (cvalue c).

(** ** Wallet operations *)
Section Wallet.
Variable H : bytes -> bytes.
Variable sign : pubkey -> bytes -> bytes.
Variable ip_parse : pystr -> res bytes.
(** TFChainWallet.py:32-89: what an operation needs of the wallet: its keys, its balance, the minimum miner fee of the network *)
Record wctx := mkctx { x_primary : pystr; x_keys : keys; x_address : uh; x_bal : wbal; x_fee : N }.
(** TFChainWallet.py:304-419: where the money comes from and where the remainder goes: the arguments [source] and [refund] *)
Record funding := mkfunding { f_source : option (list uh); f_refund : option cond }.

(** TFChainWallet.py:393-419, 1420-1455, 1649-1685, 2477-2542, 618-675, 677-761: request the signatures, sign what can be signed, and
    submit when everything is signed.  The result: the transaction and whether it is submitted. *)
Definition finish (x : wctx) (t : txn) : res (txn * bool) :=
  do qs <- requests H t;
  do _ <- guard (negb (length qs =? 0)%nat) RuntimeError;     (* Exception("BUG: ...") *)
  match sign_loop H sign (x_primary x) (x_keys x) qs t 0 with
  | (t', Ok _) => do b <- t_is_fulfilled t'; Ok (t', b)
  | (_, Err e) => Err e
  end.

(** TFChainWallet.py:304-419 *)
Definition wallet_send (x : wctx) (recipient : cond) (amount : N) (f : funding) (data : bytes) : res (txn * bool) :=
  do t <- coins_send H (x_bal x) (x_fee x) (x_address x) recipient amount (f_source f) (f_refund f) data; finish x t.
(** TFChainWallet.py:2477-2542 *)
Definition wallet_send_many (x : wctx) (pays : list (cond * N)) (f : funding) (data : bytes) : res (txn * bool) :=
  do t <- send_build H (x_bal x) (x_fee x) (x_address x) pays (f_source f) (f_refund f) data; finish x t.
(** TFChainWallet.py:1065-1157: the contract's outputs get their ids *)
Fixpoint with_ids (t : txn) (i : nat) (l : list output) : res (list output) :=
  match l with
  | [] => Ok []
  | o :: l => do id <- coin_outputid H t (Z.of_nat i); do r <- with_ids t (S i) l; Ok (mkout (o_value o) (o_cond o) id :: r)
  end.
(** types/transactions/Base.py:134-140 *)
Definition set_cout (t : txn) (l : list output) : txn :=
  match t with T1 s => T1 (mkstd (s_legacy s) (s_cin s) l (s_bin s) (s_bout s) (s_fees s) (s_data s)) | _ => t end.
(** TFChainWallet.py:1065-1157: [_create_contract], the common part of [initiate] and [participate]; [submit] the argument *)
Definition wallet_contract (now : Z) (x : wctx) (receiver : uh) (amount : N) (secret_hash : bytes) (lock : Z) (f : funding) (data : bytes) (submit : bool)
  : res (txn * bool) :=
  do t <- create_contract H now (x_bal x) (x_fee x) (x_address x) receiver amount secret_hash lock (f_source f) (f_refund f) data;
  do r <- finish x t;
  let '(t, b) := r in
  do os <- with_ids t 0 (coin_outputs t);
  Ok (set_cout t os, submit && b).

(** TFChainWallet.py:1250-1295: [record_new]; [key]: the public key chosen by [key_index] *)
Definition record_new (x : wctx) (months : Z) (names addrs : option (list (option pystr))) (key : res pubkey) (f : funding) : res (txn * bool) :=
  do t <- edits ip_parse registration_new [EMonths months];
  do _ <- guard (is_some names || is_some addrs) ValueError;
  do t <- edits ip_parse t [ENames names; EAddrs addrs];
  do c <- required_bot_fees t;
  do t <- special_build H (x_bal x) (x_fee x) (in_units c) (x_address x) t (f_source f) (f_refund f);
  do k <- key;
  match t with
  | T144 b => finish x (T144 (mkbot (b_addrs b) (b_names b) (b_months b) (b_fee b) (b_cin b) (b_refund b) (Some k) (b_sig b)))
  | _ => Err AttributeError
  end.
(** TFChainClient.py:829-856: what is known of a 3Bot: its key and when it expires *)
Record bot_record := mkrec { br_key : pubkey; br_expiration : Z }.
(** TFChainWallet.py:1297-1340: [record_update]; [now]: the chain time *)
Definition record_update (now : Z) (rec : Z -> res bot_record) (x : wctx) (id months : Z)
    (names_add names_del addrs_add addrs_del : option (list (option pystr))) (f : funding) : res (txn * bool) :=
  do _ <- guard ((1 <=? months)%Z || is_some names_add || is_some names_del || is_some addrs_add || is_some addrs_del) ValueError;
  do t <- edits ip_parse update_new [EBotId (Some id); EMonths months; ENames names_add; ENamesDel names_del; EAddrs addrs_add; EAddrsDel addrs_del];
  do r <- rec id;
  do _ <- guard (negb ((br_expiration r <=? now) && (months =? 0)))%Z ThreeBotInactive;
  match t with
  | T145 u =>
      let t := T145 (mkupd (u_id u) (u_addr_add u) (u_addr_del u) (u_name_add u) (u_name_del u) (u_months u) (u_fee u)
                           (u_cin u) (u_refund u) (u_sig u) (Some (br_key r))) in
      do c <- required_bot_fees t;
      do t <- special_build H (x_bal x) (x_fee x) (in_units c) (x_address x) t (f_source f) (f_refund f);
      finish x t
  | _ => Err AttributeError
  end.
(** TFChainWallet.py:1342-1386: [name_transfer] *)
Definition name_transfer (now : Z) (rec : Z -> res bot_record) (x : wctx) (sender receiver : Z) (names : option (list (option pystr))) (f : funding)
  : res (txn * bool) :=
  do t <- edits ip_parse transfer_new [EBotId (Some sender); EReceiver (Some receiver); ENames names];
  match t with
  | T146 n =>
      do _ <- guard (negb (length (n_names n) =? 0)%nat) ValueError;
      do s <- rec sender;
      do _ <- guard (negb (br_expiration s <=? now)%Z) ThreeBotInactive;
      do r <- rec receiver;
      do _ <- guard (negb (br_expiration r <=? now)%Z) ThreeBotInactive;
      let t := T146 (mkname (n_sender n) (n_receiver n) (n_names n) (n_fee n) (n_cin n) (n_refund n) (n_ssig n) (n_rsig n)
                            (Some (br_key s)) (Some (br_key r))) in
      do c <- required_bot_fees t;
      do t <- special_build H (x_bal x) (x_fee x) (in_units c) (x_address x) t (f_source f) (f_refund f);
      finish x t
  | _ => Err AttributeError
  end.
(** TFChainWallet.py:1491-1524: [coins_send] to an ERC20 address *)
Definition erc20_send (x : wctx) (address : bval) (amount : N) (f : funding) : res (txn * bool) :=
  do _ <- guard (0 <? amount) ValueError;
  do a <- eaddr_new address;
  do t <- special_build H (x_bal x) (x_fee x) amount (x_address x) (T208 (mkconv a amount None [] None)) (f_source f) (f_refund f);
  finish x t.
(** TFChainWallet.py:1526-1565: [address_register]; [key]: the key of the address *)
Definition erc20_register (x : wctx) (key : res pubkey) (f : funding) : res (txn * bool) :=
  do k <- key;
  do t <- special_build H (x_bal x) (x_fee x) REG_FEE (x_address x) (T210 (mkreg (Some k) None None None None)) (f_source f) (f_refund f);
  finish x t.

(** types/transactions/Minting.py:49-60, 241-252, the setters of [data]: None or the bytes *)
Definition opt_data (d : option bytes) : res bytes := match d with None => Ok [] | Some d => data_new d end.
(** TFChainWallet.py:618-675, 677-761: what [definition_set] and [coins_new] have in common; [mc]: the mint condition in force,
    [nonce]: 8 random bytes *)
Definition mint (x : wctx) (mc : res cond) (new : Txn.mint) (nonce : bytes) (data : option bytes) : res (txn * bool) :=
  do d <- opt_data data;
  do c <- mc;
  do f <- from_condition c;
  finish x (TMint (mkmint (Some f) new [x_fee x] d nonce (Some c))).
(** TFChainWallet.py:618-675 *)
Definition definition_set (x : wctx) (mc : res cond) (minter : cond) (nonce : bytes) (data : option bytes) : res (txn * bool) :=
  do u <- cond_unlockhash H minter;
  do _ <- guard ((uh_type u =? UH_PUBLIC_KEY)%Z || (uh_type u =? UH_MULTI_SIG)%Z) ValueError;
  mint x mc (MCond minter) nonce data.
(** TFChainWallet.py:677-761 *)
Definition coins_new (x : wctx) (mc : res cond) (recipient : cond) (amount : N) (nonce : bytes) (data : option bytes) : res (txn * bool) :=
  do _ <- guard (0 <? amount) ValueError;
  mint x mc (MCoins [mkout amount recipient []]) nonce data.
End Wallet.
