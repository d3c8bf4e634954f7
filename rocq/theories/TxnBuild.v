(** Model of building a transaction by hand: the properties and methods of /repo/tfchain/types/transactions/*.py which a caller assigns and
    calls, with the values a caller may give them.  A step returns what the transaction is afterwards and how the call ended: an exception does not
    undo what was done before it.
    Simplifications: values are not shared (an output or fulfilment given to two transactions is not changed through one of them); a number of months is
    an int; a list of inputs or outputs is None, a list, or something that cannot be iterated. *)
From Verif Require Import Base Encoders Currency Primitive Types Conditions Fulfillments ThreeBotTypes Txn.

(** Values given where a condition is expected: types/IO.py:155-163 *)
Inductive condarg := CGNone | CGCond (c : cond) | CGOther.
(** Values given where a fulfilment is expected: types/IO.py:54-62 *)
Inductive ffarg := FGNone | FGFf (f : ff) | FGOther.
(** Values given where an output is expected: types/IO.py:68-76 *)
Inductive outarg := OGNone | OGOut (o : output) | OGOther.
(** Elements of a list of inputs: types/transactions/Standard.py:117-124 *)
Inductive inarg := IGIn (i : input) | IGOther.
(** Lists: types/transactions/Standard.py:117-124 *)
Inductive seqarg (A : Type) := SGNone | SGList (l : list A) | SGOther.
Arguments SGNone {A}. Arguments SGList {A} l. Arguments SGOther {A}.
(** What [coin_outputs] may be assigned: types/transactions/Standard.py:134-140, ERC20.py:86-105 *)
Inductive outsarg := OLNone | OLList (l : list outarg) | OLOne (o : output) | OLOther.
(** Keys: types/transactions/ERC20.py:435-444 *)
Inductive keyarg := KGNone | KGKey (k : pubkey) | KGOther.
(** What [address] may be assigned: types/transactions/ERC20.py:34-39, 252-260 *)
Inductive uharg := UGUh (u : uh) | UGVal (v : bval).
(** Bot identifiers: types/transactions/ThreeBot.py:488-497 *)
Inductive botarg := BGNone | BGInt (z : Z) | BGOther.
(** Numbers of months: types/transactions/ThreeBot.py:263-267 *)
Inductive monarg := MGInt (z : Z) | MGOther.
(** Names: types/ThreeBot.py:243-261 *)
Inductive namearg := NGText (v : option pystr) | NGName (s : pystr) | NGOther.
(** Network addresses: types/ThreeBot.py:139-179 *)
Inductive addrarg := AGVal (v : naval) | AGOther.
(** Amounts of block stakes: types/IO.py:331-336 *)
Inductive stakearg := TGStake (n : N) | TGVal (v : bsinput).

(** types/transactions/Standard.py:117-124, 134-150, 159-166, 175-194, 214-226, Minting.py:48-60, 71-79, 90-98, 112-123, 240-252, 262-276, 290-298, 309-317, ERC20.py:34-39, 47-52, 62-69, 86-115, 123-128, 252-260, 268-273, 281-286, 294-299, 313-318, 435-444, 452-457, 467-474, 491-520, 526-532, 540-545, ThreeBot.py:145-151, 167-193, 201-216, 224-239, 246-251, 263-267, 274-279, 286-293, 488-497, 506-512, 528-554, 562-577, 585-600, 608-623, 631-646, 653-658, 670-674, 681-686, 693-700, 917-926, 933-942, 951-957, 973-999, 1007-1022, 1029-1034, 1047-1052, 1059-1064, 1071-1078, 1085-1092: what a caller does with a transaction: the assignments, then the calls *)
Inductive op :=
| CoinInputs (v : seqarg inarg) | CoinOutputs (v : outsarg)
| StakeInputs (v : seqarg inarg) | StakeOutputs (v : seqarg outarg) | Data (v : bval)
| MintCondition (v : condarg) | ParentMintCondition (v : condarg) | MintFulfilment (v : ffarg)
| Address (v : uharg) | Value (v : cinput) | TransactionFee (v : cinput) | RegistrationFee (v : cinput)
| BlockId (v : bval) | TransactionId (v : bval)
| PublicKey (v : keyarg) | Signature (v : bval)
| Addresses (v : seqarg addrarg) | Names (v : seqarg namearg) | Months (v : monarg)
| BotId (v : botarg) | AddressesToAdd (v : seqarg addrarg) | AddressesToRemove (v : seqarg addrarg) | NamesToAdd (v : seqarg namearg) | NamesToRemove (v : seqarg namearg) | ParentPublicKey (v : keyarg)
| SenderBotId (v : botarg) | ReceiverBotId (v : botarg) | SenderSignature (v : bval) | ReceiverSignature (v : bval) | SenderKey (v : keyarg) | ReceiverKey (v : keyarg)
| CoinInputAdd (parent : bval) (f : ffarg) (o : outarg) | CoinOutputAdd (v : cinput) (c : condarg) (id : bval)
| StakeInputAdd (parent : bval) (f : ffarg) (o : outarg) | StakeOutputAdd (v : stakearg) (c : condarg) (id : bval)
| MinerFeeAdd (v : cinput) | RefundSet (v : cinput) (c : condarg) (id : bval)
| AddressAdd (v : addrarg) | AddressRemove (v : addrarg) | NameAdd (v : namearg) | NameRemove (v : namearg).

(** ** Inputs and outputs *)
(** types/IO.py:155-163 *)
Definition cond_arg (v : condarg) : res cond := match v with CGNone => Ok CNil | CGCond c => Ok c | CGOther => Err TypeError end.
(** types/IO.py:54-62, types/FulfillmentTypes.py:237-241: a missing fulfilment is an empty single signature *)
Definition ff_arg (v : ffarg) : res ff := match v with FGNone => Ok (FSingle pk_default None) | FGFf f => Ok f | FGOther => Err TypeError end.
(** types/IO.py:144-149: [CoinOutput.value] keeps a Currency as it is *)
Definition coin_arg (v : cinput) : res N :=
  match v with CICur c => Ok (scaled9 (cvalue c)) | v => do c <- cset v; Ok (scaled9 (cvalue c)) end.
(** types/transactions/Standard.py:193-194: [Currency(value=...)] *)
Definition money_arg (v : cinput) : res N := do c <- cset v; Ok (scaled9 (cvalue c)).
(** types/transactions/ERC20.py:47-52, 123-128: the same, None for no amount at all *)
Definition fee_arg (v : cinput) : res (option N) := match v with CINone => Ok None | v => do n <- money_arg v; Ok (Some n) end.
(** types/IO.py:331-336 *)
Definition stake_arg (v : stakearg) : res N := match v with TGStake n => Ok n | TGVal v => bsset v end.
(** types/transactions/Standard.py:142-145, types/IO.py:13-20, 68-76: a new coin input *)
Definition input_new (parent : bval) (f : ffarg) (o : outarg) : res input :=
  do p <- hash_new parent; do g <- ff_arg f;
  do x <- (match o with OGNone => Ok None | OGOut x => Ok (Some x) | OGOther => Err TypeError end);
  Ok (mkin p g x).
(** types/transactions/Standard.py:183-186, types/IO.py:200-207, 255-263: a new block stake input, which has a parent output always *)
Definition stake_input_new (parent : bval) (f : ffarg) (o : outarg) : res input :=
  do p <- hash_new parent; do g <- ff_arg f;
  do x <- (match o with OGNone => Ok out_default | OGOut x => Ok x | OGOther => Err TypeError end);
  Ok (mkin p g (Some x)).
(** types/transactions/Standard.py:147-150, types/IO.py:125-132: a new coin output *)
Definition output_new (v : cinput) (c : condarg) (id : bval) : res output :=
  do n <- coin_arg v; do k <- cond_arg c; do i <- hash_new id; Ok (mkout n k i).
(** types/transactions/Standard.py:188-191, types/IO.py:312-319: a new block stake output *)
Definition stake_output_new (v : stakearg) (c : condarg) (id : bval) : res output :=
  do n <- stake_arg v; do k <- cond_arg c; do i <- hash_new id; Ok (mkout n k i).
(** types/transactions/Standard.py:117-124: a copy of an input; its [parent_output] is that of a new output if it has none (IO.py:63-65) *)
Definition input_copy (v : inarg) : res input :=
  match v with
  | IGIn i => Ok (mkin (i_parent i) (i_ff i) (Some (match i_out i with Some o => o | None => out_default end)))
  | IGOther => Err AttributeError
  end.
(** types/transactions/Standard.py:134-140: a copy of an output *)
Definition output_copy (v : outarg) : res output :=
  match v with OGOut o => Ok (mkout (o_value o) (o_cond o) (o_id o)) | _ => Err AttributeError end.
(** types/transactions/ERC20.py:86-105: the one output *)
Definition refund_arg (v : outsarg) : res (option output) :=
  match v with
  | OLList (_ :: _ :: _) => Err ValueError
  | OLNone | OLList [] | OLList [OGNone] => Ok None
  | OLOne o | OLList [OGOut o] => Ok (Some (mkout (o_value o) (o_cond o) (o_id o)))
  | OLOther | OLList [OGOther] => Err TypeError
  end.
(** types/transactions/Standard.py:134-140: the outputs as a list; an output alone cannot be iterated *)
Definition outs_arg (v : outsarg) : seqarg outarg :=
  match v with OLNone => SGNone | OLList l => SGList l | OLOne _ | OLOther => SGOther end.
(** types/transactions/ERC20.py:34-39 *)
Definition eaddr_arg (v : uharg) : res bytes := match v with UGUh _ => Err TypeError | UGVal v => eaddr_new v end.

(** ** Other values *)
(** types/transactions/Standard.py:214-226, Minting.py:48-60: data; a text is its UTF-8 encoding *)
Definition data_arg (v : bval) : res bytes :=
  match v with
  | BVNone => Ok []
  | v =>
      do b <- (match v with BVData d => Ok (bd_val d) | BVStr s => utf8 s | BVBytes b => Ok b | _ => Err TypeError end);
      do _ <- guard (lenN b <=? 83) ValueError;
      Ok b
  end.
(** types/transactions/Minting.py:71-79, 90-98: None is as the nil condition for [mint_condition] *)
Definition mint_cond_arg (v : condarg) : res (option cond) := match v with CGNone => Ok None | CGCond c => Ok (Some c) | CGOther => Err TypeError end.
(** types/transactions/Minting.py:112-120 *)
Definition mint_ff_arg (v : ffarg) : res (option ff) := match v with FGNone => Ok None | FGFf f => Ok (Some f) | FGOther => Err TypeError end.
(** types/transactions/ERC20.py:435-444, ThreeBot.py:286-293 *)
Definition key_arg (v : keyarg) : res (option pubkey) := match v with KGNone => Ok None | KGKey k => Ok (Some (mkpk (pk_spec k) (pk_hash k))) | KGOther => Err TypeError end.
(** types/transactions/ERC20.py:452-457, ThreeBot.py:274-279: a signature, encoded as an array *)
Definition sign_arg (v : bval) : res bsig := match v with BVNone => Ok None | v => do s <- sig_new v; Ok (Some (true, s)) end.
(** types/transactions/ThreeBot.py:488-497, 917-926, 933-942: a bot identifier; none is 0 (483-487) *)
Definition bot_arg (v : botarg) : res Z :=
  match v with BGNone => Ok 0%Z | BGInt z => if (z <=? 0)%Z then Err ValueError else Ok z | BGOther => Err TypeError end.
(** types/transactions/ThreeBot.py:263-267, 670-674 *)
Definition months_arg (least : Z) (v : monarg) : res Z :=
  match v with MGInt z => if ((z <? least) || (24 <? z))%Z then Err ValueError else Ok z | MGOther => Err TypeError end.
(** types/ThreeBot.py:243-261: [BotName(value=...)]; copying a name fails *)
Definition name_arg (v : namearg) : res pystr := match v with NGText v => bn_new v | NGName _ => Err AttributeError | NGOther => Err TypeError end.
(** types/transactions/ERC20.py:526-532: the registration fee can be what it is *)
Definition reg_fee_arg (v : cinput) : res unit :=
  match v with
  | CINone => Ok tt
  | v => do n <- money_arg v; guard (n =? REG_FEE) ValueError
  end.

Section Build.
Variable H : bytes -> bytes.
Variable ip_parse : pystr -> res bytes.

(** types/transactions/ERC20.py:252-260 *)
Definition uh_arg (v : uharg) : res uh :=
  match v with UGUh u => Ok u | UGVal BVNone => Ok uh_default | UGVal (BVStr s) => uh_parse H s | UGVal _ => Err TypeError end.
(** types/ThreeBot.py:139-179: [NetworkAddress(address=...)] *)
Definition addr_arg (v : addrarg) : res naddr := match v with AGVal v => na_value ip_parse v | AGOther => Err TypeError end.

(** ** Assigning to a field, and adding to one *)
(** types/transactions/ERC20.py:34-39: a field is assigned when its value could be made *)
Definition put {A} (old : A) (new : res A) : A * res unit := match new with Ok a => (a, Ok tt) | Err e => (old, Err e) end.
(** types/transactions/Standard.py:142-145: [append] *)
Definition add {A} (l : list A) (new : res A) : list A * res unit := match new with Ok a => (l ++ [a], Ok tt) | Err e => (l, Err e) end.
(** types/transactions/ThreeBot.py:209-216, 232-239: [append], unless there are [most] already *)
Definition add_most {A} (most : nat) (l : list A) (new : res A) : list A * res unit :=
  if (length l =? most)%nat then (l, Err RuntimeError) else add l new.
(** types/transactions/Standard.py:117-124: one after the other, until one fails *)
Fixpoint add_all {A B} (one : list B -> A -> list B * res unit) (l : list B) (vs : list A) : list B * res unit :=
  match vs with
  | [] => (l, Ok tt)
  | v :: vs => match one l v with (l', Ok _) => add_all one l' vs | r => r end
  end.
(** types/transactions/Standard.py:117-124: [start] is what the list is made first *)
Definition assign {A B} (one : list B -> A -> list B * res unit) (start : list B) (v : seqarg A) : list B * res unit :=
  match v with SGNone => (start, Ok tt) | SGList vs => add_all one start vs | SGOther => (start, Err TypeError) end.
(** types/transactions/Standard.py:117-124: the transaction with its field as it was left *)
Definition part {A} (f : A -> txn) (r : A * res unit) : txn * res unit := (f (fst r), snd r).

(** types/transactions/ThreeBot.py:21-22 MAX_ADDRESSES_PER_BOT *)
Definition max_addresses : nat := 10.
(** types/transactions/ThreeBot.py:21-22 MAX_NAMES_PER_BOT *)
Definition max_names : nat := 5.
(** types/transactions/ThreeBot.py:209-216 *)
Definition one_addr (l : list naddr) (v : addrarg) := add_most max_addresses l (addr_arg v).
(** types/transactions/ThreeBot.py:232-239 *)
Definition one_name (l : list pystr) (v : namearg) := add_most max_names l (name_arg v).
(** types/transactions/Standard.py:122-124 *)
Definition one_input (l : list input) (v : inarg) := add l (input_copy v).
(** types/transactions/Standard.py:136-137 *)
Definition one_output (l : list output) (v : outarg) := add l (output_copy v).
(** types/transactions/ERC20.py:512-515, ThreeBot.py:991-994: [append] to None fails *)
Definition add_opt (l : option (list input)) (new : res input) : option (list input) * res unit :=
  match new with
  | Err e => (l, Err e)
  | Ok i => match l with Some l => (Some (l ++ [i]), Ok tt) | None => (None, Err AttributeError) end
  end.

(** types/transactions/Base.py:126-172, Python: what an assignment or a call does on a class that does not have it: the base class has read-only
    properties of some names, a method that is missing raises, and any other name becomes an attribute nothing looks at. *)
Definition missing (o : op) : res unit :=
  match o with
  | CoinInputs _ | CoinOutputs _ | StakeInputs _ | StakeOutputs _ | Data _
  | CoinInputAdd _ _ _ | CoinOutputAdd _ _ _ | StakeInputAdd _ _ _ | StakeOutputAdd _ _ _ | MinerFeeAdd _ | RefundSet _ _ _
  | AddressAdd _ | AddressRemove _ | NameAdd _ | NameRemove _ => Err AttributeError
  | _ => Ok tt
  end.

(** types/transactions/Standard.py:117-124, 134-150, 159-166, 175-194, 214-226 *)
Definition step_std (t : tx_std) (o : op) : txn * res unit :=
  let cin l := T1 (mkstd (s_legacy t) l (s_cout t) (s_bin t) (s_bout t) (s_fees t) (s_data t)) in
  let cout l := T1 (mkstd (s_legacy t) (s_cin t) l (s_bin t) (s_bout t) (s_fees t) (s_data t)) in
  let bin l := T1 (mkstd (s_legacy t) (s_cin t) (s_cout t) l (s_bout t) (s_fees t) (s_data t)) in
  let bout l := T1 (mkstd (s_legacy t) (s_cin t) (s_cout t) (s_bin t) l (s_fees t) (s_data t)) in
  match o with
  | CoinInputs v => part cin (assign one_input [] v)
  | CoinOutputs v => part cout (assign one_output [] (outs_arg v))
  | StakeInputs v => part bin (assign one_input [] v)
  | StakeOutputs v => part bout (assign one_output [] v)
  | CoinInputAdd p f x => part cin (add (s_cin t) (input_new p f x))
  | CoinOutputAdd v c i => part cout (add (s_cout t) (output_new v c i))
  | StakeInputAdd p f x => part bin (add (s_bin t) (stake_input_new p f x))
  | StakeOutputAdd v c i => part bout (add (s_bout t) (stake_output_new v c i))
  | MinerFeeAdd v => part (fun l => T1 (mkstd (s_legacy t) (s_cin t) (s_cout t) (s_bin t) (s_bout t) l (s_data t))) (add (s_fees t) (money_arg v))
  | Data v => part (fun d => T1 (mkstd (s_legacy t) (s_cin t) (s_cout t) (s_bin t) (s_bout t) (s_fees t) d)) (put (s_data t) (data_arg v))
  | o => (T1 t, missing o)
  end.
(** types/transactions/Minting.py:48-60, 71-79, 90-98, 112-123, 240-252, 262-276, 290-298, 309-317 *)
Definition step_mint (t : tx_mint) (o : op) : txn * res unit :=
  let new m := TMint (mkmint (m_ff t) m (m_fees t) (m_data t) (m_nonce t) (m_parent t)) in
  match o, m_new t with
  | MintCondition v, MCond c => part (fun c => new (MCond c)) (put c (cond_arg v))
  | CoinOutputs v, MCoins os => part (fun l => new (MCoins l)) (assign one_output [] (outs_arg v))
  | CoinOutputAdd v c i, MCoins os => part (fun l => new (MCoins l)) (add os (output_new v c i))
  | ParentMintCondition v, _ => part (fun c => TMint (mkmint (m_ff t) (m_new t) (m_fees t) (m_data t) (m_nonce t) c)) (put (m_parent t) (mint_cond_arg v))
  | MintFulfilment v, _ => part (fun f => TMint (mkmint f (m_new t) (m_fees t) (m_data t) (m_nonce t) (m_parent t))) (put (m_ff t) (mint_ff_arg v))
  | MinerFeeAdd v, _ => part (fun l => TMint (mkmint (m_ff t) (m_new t) l (m_data t) (m_nonce t) (m_parent t))) (add (m_fees t) (money_arg v))
  | Data v, _ => part (fun d => TMint (mkmint (m_ff t) (m_new t) (m_fees t) d (m_nonce t) (m_parent t))) (put (m_data t) (data_arg v))
  | o, _ => (TMint t, missing o)
  end.
(** types/transactions/ERC20.py:34-39, 47-52, 62-69, 86-115, 123-128 *)
Definition step_conv (t : tx_conv) (o : op) : txn * res unit :=
  let cin l := T208 (mkconv (c_addr t) (c_value t) (c_fee t) l (c_refund t)) in
  let refund r := T208 (mkconv (c_addr t) (c_value t) (c_fee t) (c_cin t) r) in
  match o with
  | Address v => part (fun a => T208 (mkconv a (c_value t) (c_fee t) (c_cin t) (c_refund t))) (put (c_addr t) (eaddr_arg v))
  | Value v => part (fun n => T208 (mkconv (c_addr t) n (c_fee t) (c_cin t) (c_refund t))) (put (c_value t) (money_arg v))
  | TransactionFee v => part (fun n => T208 (mkconv (c_addr t) (c_value t) n (c_cin t) (c_refund t))) (put (c_fee t) (fee_arg v))
  | CoinInputs v => part cin (assign one_input [] v)
  | CoinInputAdd p f x => part cin (add (c_cin t) (input_new p f x))
  | CoinOutputs v => part refund (put (c_refund t) (refund_arg v))
  | RefundSet v c i => part refund (put (c_refund t) (do x <- output_new v c i; Ok (Some x)))
  | o => (T208 t, missing o)
  end.
(** types/transactions/ERC20.py:252-260, 268-273, 281-286, 294-299, 313-318 *)
Definition step_gen (t : tx_gen) (o : op) : txn * res unit :=
  match o with
  | Address v => part (fun a => T209 (mkgen a (g_value t) (g_fee t) (g_block t) (g_txid t))) (put (g_addr t) (uh_arg v))
  | Value v => part (fun n => T209 (mkgen (g_addr t) n (g_fee t) (g_block t) (g_txid t))) (put (g_value t) (money_arg v))
  | TransactionFee v => part (fun n => T209 (mkgen (g_addr t) (g_value t) n (g_block t) (g_txid t))) (put (g_fee t) (fee_arg v))
  | BlockId v => part (fun h => T209 (mkgen (g_addr t) (g_value t) (g_fee t) h (g_txid t))) (put (g_block t) (ehash_new v))
  | TransactionId v => part (fun h => T209 (mkgen (g_addr t) (g_value t) (g_fee t) (g_block t) h)) (put (g_txid t) (ehash_new v))
  | o => (T209 t, missing o)
  end.
(** types/transactions/ERC20.py:435-444, 452-457, 467-474, 491-520, 526-532, 540-545 *)
Definition step_reg (t : tx_reg) (o : op) : txn * res unit :=
  let cin l := T210 (mkreg (r_pk t) (r_sig t) (r_fee t) l (r_refund t)) in
  let refund r := T210 (mkreg (r_pk t) (r_sig t) (r_fee t) (r_cin t) r) in
  match o with
  | PublicKey v => part (fun k => T210 (mkreg k (r_sig t) (r_fee t) (r_cin t) (r_refund t))) (put (r_pk t) (key_arg v))
  | Signature v => part (fun s => T210 (mkreg (r_pk t) s (r_fee t) (r_cin t) (r_refund t))) (put (r_sig t) (sign_arg v))
  | RegistrationFee v => (T210 t, reg_fee_arg v)
  | TransactionFee v => part (fun n => T210 (mkreg (r_pk t) (r_sig t) n (r_cin t) (r_refund t))) (put (r_fee t) (fee_arg v))
  | CoinInputs v => part (fun l => cin (Some l)) (assign one_input [] v)
  | CoinInputAdd p f x => part cin (add_opt (r_cin t) (input_new p f x))
  | CoinOutputs v => part refund (put (r_refund t) (refund_arg v))
  | RefundSet v c i => part refund (put (r_refund t) (do x <- output_new v c i; Ok (Some x)))
  | o => (T210 t, missing o)
  end.
(** types/transactions/ThreeBot.py:145-151, 167-193, 201-216, 224-239, 246-251, 263-267, 274-279, 286-293 *)
Definition step_bot (t : tx_bot) (o : op) : txn * res unit :=
  let cin l := T144 (mkbot (b_addrs t) (b_names t) (b_months t) (b_fee t) l (b_refund t) (b_pk t) (b_sig t)) in
  let refund r := T144 (mkbot (b_addrs t) (b_names t) (b_months t) (b_fee t) (b_cin t) r (b_pk t) (b_sig t)) in
  let addrs l := T144 (mkbot l (b_names t) (b_months t) (b_fee t) (b_cin t) (b_refund t) (b_pk t) (b_sig t)) in
  let names l := T144 (mkbot (b_addrs t) l (b_months t) (b_fee t) (b_cin t) (b_refund t) (b_pk t) (b_sig t)) in
  match o with
  | Addresses v => part addrs (assign one_addr [] v)
  | AddressAdd v => part addrs (one_addr (b_addrs t) v)
  | Names v => part names (assign one_name [] v)
  | NameAdd v => part names (one_name (b_names t) v)
  | Months v => part (fun n => T144 (mkbot (b_addrs t) (b_names t) n (b_fee t) (b_cin t) (b_refund t) (b_pk t) (b_sig t))) (put (b_months t) (months_arg 1 v))
  | TransactionFee v => part (fun n => T144 (mkbot (b_addrs t) (b_names t) (b_months t) n (b_cin t) (b_refund t) (b_pk t) (b_sig t))) (put (b_fee t) (fee_arg v))
  | CoinInputs v => part cin (assign one_input [] v)
  | CoinInputAdd p f x => part cin (add (b_cin t) (input_new p f x))
  | CoinOutputs v => part refund (put (b_refund t) (refund_arg v))
  | RefundSet v c i => part refund (put (b_refund t) (do x <- output_new v c i; Ok (Some x)))
  | PublicKey v => part (fun k => T144 (mkbot (b_addrs t) (b_names t) (b_months t) (b_fee t) (b_cin t) (b_refund t) k (b_sig t))) (put (b_pk t) (key_arg v))
  | Signature v => part (fun s => T144 (mkbot (b_addrs t) (b_names t) (b_months t) (b_fee t) (b_cin t) (b_refund t) (b_pk t) s)) (put (b_sig t) (sign_arg v))
  | o => (T144 t, missing o)
  end.
(** types/transactions/ThreeBot.py:488-497, 506-512, 528-554, 562-577, 585-600, 608-623, 631-646, 653-658, 670-674, 681-686, 693-700 *)
Definition step_upd (t : tx_upd) (o : op) : txn * res unit :=
  let cin l := T145 (mkupd (u_id t) (u_addr_add t) (u_addr_del t) (u_name_add t) (u_name_del t) (u_months t) (u_fee t) l (u_refund t) (u_sig t) (u_parent t)) in
  let refund r := T145 (mkupd (u_id t) (u_addr_add t) (u_addr_del t) (u_name_add t) (u_name_del t) (u_months t) (u_fee t) (u_cin t) r (u_sig t) (u_parent t)) in
  let aadd l := T145 (mkupd (u_id t) l (u_addr_del t) (u_name_add t) (u_name_del t) (u_months t) (u_fee t) (u_cin t) (u_refund t) (u_sig t) (u_parent t)) in
  let adel l := T145 (mkupd (u_id t) (u_addr_add t) l (u_name_add t) (u_name_del t) (u_months t) (u_fee t) (u_cin t) (u_refund t) (u_sig t) (u_parent t)) in
  let nadd l := T145 (mkupd (u_id t) (u_addr_add t) (u_addr_del t) l (u_name_del t) (u_months t) (u_fee t) (u_cin t) (u_refund t) (u_sig t) (u_parent t)) in
  let ndel l := T145 (mkupd (u_id t) (u_addr_add t) (u_addr_del t) (u_name_add t) l (u_months t) (u_fee t) (u_cin t) (u_refund t) (u_sig t) (u_parent t)) in
  match o with
  | BotId v => part (fun i => T145 (mkupd i (u_addr_add t) (u_addr_del t) (u_name_add t) (u_name_del t) (u_months t) (u_fee t) (u_cin t) (u_refund t) (u_sig t) (u_parent t))) (put (u_id t) (bot_arg v))
  | AddressesToAdd v => part aadd (assign one_addr [] v)
  | AddressAdd v => part aadd (one_addr (u_addr_add t) v)
  | AddressesToRemove v => part adel (assign one_addr [] v)
  | AddressRemove v => part adel (one_addr (u_addr_del t) v)
  | NamesToAdd v => part nadd (assign one_name [] v)
  | NameAdd v => part nadd (one_name (u_name_add t) v)
  | NamesToRemove v => part ndel (assign one_name [] v)
  | NameRemove v => part ndel (one_name (u_name_del t) v)
  | Months v => part (fun n => T145 (mkupd (u_id t) (u_addr_add t) (u_addr_del t) (u_name_add t) (u_name_del t) n (u_fee t) (u_cin t) (u_refund t) (u_sig t) (u_parent t))) (put (u_months t) (months_arg 0 v))
  | TransactionFee v => part (fun n => T145 (mkupd (u_id t) (u_addr_add t) (u_addr_del t) (u_name_add t) (u_name_del t) (u_months t) n (u_cin t) (u_refund t) (u_sig t) (u_parent t))) (put (u_fee t) (fee_arg v))
  | CoinInputs v => part cin (assign one_input [] v)
  | CoinInputAdd p f x => part cin (add (u_cin t) (input_new p f x))
  | CoinOutputs v => part refund (put (u_refund t) (refund_arg v))
  | RefundSet v c i => part refund (put (u_refund t) (do x <- output_new v c i; Ok (Some x)))
  | Signature v => part (fun s => T145 (mkupd (u_id t) (u_addr_add t) (u_addr_del t) (u_name_add t) (u_name_del t) (u_months t) (u_fee t) (u_cin t) (u_refund t) s (u_parent t))) (put (u_sig t) (sign_arg v))
  | ParentPublicKey v => part (fun k => T145 (mkupd (u_id t) (u_addr_add t) (u_addr_del t) (u_name_add t) (u_name_del t) (u_months t) (u_fee t) (u_cin t) (u_refund t) (u_sig t) k)) (put (u_parent t) (key_arg v))
  | o => (T145 t, missing o)
  end.
(** types/transactions/ThreeBot.py:917-926, 933-942, 951-957, 973-999, 1007-1022, 1029-1034, 1047-1052, 1059-1064, 1071-1078, 1085-1092; assigning [names] empties another list (1007-1013) *)
Definition step_name (t : tx_name) (o : op) : txn * res unit :=
  let cin l := T146 (mkname (n_sender t) (n_receiver t) (n_names t) (n_fee t) l (n_refund t) (n_ssig t) (n_rsig t) (n_spk t) (n_rpk t)) in
  let refund r := T146 (mkname (n_sender t) (n_receiver t) (n_names t) (n_fee t) (n_cin t) r (n_ssig t) (n_rsig t) (n_spk t) (n_rpk t)) in
  let names l := T146 (mkname (n_sender t) (n_receiver t) l (n_fee t) (n_cin t) (n_refund t) (n_ssig t) (n_rsig t) (n_spk t) (n_rpk t)) in
  match o with
  | SenderBotId v => part (fun i => T146 (mkname i (n_receiver t) (n_names t) (n_fee t) (n_cin t) (n_refund t) (n_ssig t) (n_rsig t) (n_spk t) (n_rpk t))) (put (n_sender t) (bot_arg v))
  | ReceiverBotId v => part (fun i => T146 (mkname (n_sender t) i (n_names t) (n_fee t) (n_cin t) (n_refund t) (n_ssig t) (n_rsig t) (n_spk t) (n_rpk t))) (put (n_receiver t) (bot_arg v))
  | Names v => part names (assign one_name (n_names t) v)
  | NameAdd v => part names (one_name (n_names t) v)
  | TransactionFee v => part (fun n => T146 (mkname (n_sender t) (n_receiver t) (n_names t) n (n_cin t) (n_refund t) (n_ssig t) (n_rsig t) (n_spk t) (n_rpk t))) (put (n_fee t) (fee_arg v))
  | CoinInputs v => part (fun l => cin (Some l)) (assign one_input [] v)
  | CoinInputAdd p f x => part cin (add_opt (n_cin t) (input_new p f x))
  | CoinOutputs v => part refund (put (n_refund t) (refund_arg v))
  | RefundSet v c i => part refund (put (n_refund t) (do x <- output_new v c i; Ok (Some x)))
  | SenderSignature v => part (fun s => T146 (mkname (n_sender t) (n_receiver t) (n_names t) (n_fee t) (n_cin t) (n_refund t) s (n_rsig t) (n_spk t) (n_rpk t))) (put (n_ssig t) (sign_arg v))
  | ReceiverSignature v => part (fun s => T146 (mkname (n_sender t) (n_receiver t) (n_names t) (n_fee t) (n_cin t) (n_refund t) (n_ssig t) s (n_spk t) (n_rpk t))) (put (n_rsig t) (sign_arg v))
  | SenderKey v => part (fun k => T146 (mkname (n_sender t) (n_receiver t) (n_names t) (n_fee t) (n_cin t) (n_refund t) (n_ssig t) (n_rsig t) k (n_rpk t))) (put (n_spk t) (key_arg v))
  | ReceiverKey v => part (fun k => T146 (mkname (n_sender t) (n_receiver t) (n_names t) (n_fee t) (n_cin t) (n_refund t) (n_ssig t) (n_rsig t) (n_spk t) k)) (put (n_rpk t) (key_arg v))
  | o => (T146 t, missing o)
  end.
(** types/transactions/Base.py:47-309 and its subclasses *)
Definition step (t : txn) (o : op) : txn * res unit :=
  match t with
  | T1 t => step_std t o | TMint t => step_mint t o | T208 t => step_conv t o | T209 t => step_gen t o | T210 t => step_reg t o
  | T144 t => step_bot t o | T145 t => step_upd t o | T146 t => step_name t o
  end.
(** A caller of types/transactions/Base.py:47-309 and its subclasses that goes on after an exception: all the steps, whether they fail or not. *)
Fixpoint history (t : txn) (os : list op) : txn := match os with [] => t | o :: os => history (fst (step t o)) os end.
End Build.

(** types/transactions/Standard.py:8-20, Minting.py:14-24, 206-216 ([nonce]: eight random bytes), ERC20.py:15-22, 233-240, 414-423, ThreeBot.py:105-115, 445-458, 887-899: the new transaction of a version,
    as TFChainClient's factories make it; an absent address or hash is an empty one. *)
Definition blank_txn (nonce : bytes) (v : Z) : option txn :=
  if (v =? 1)%Z then Some (T1 (mkstd false [] [] [] [] [] []))
  else if (v =? 128)%Z then Some (TMint (mkmint None (MCond CNil) [] [] nonce None))
  else if (v =? 129)%Z then Some (TMint (mkmint None (MCoins []) [] [] nonce None))
  else if (v =? 208)%Z then Some (T208 (mkconv [] 0 None [] None))
  else if (v =? 209)%Z then Some (T209 (mkgen uh_default 0 None [] []))
  else if (v =? 210)%Z then Some (T210 (mkreg None None None None None))
  else if (v =? 144)%Z then Some (T144 (mkbot [] [] 0 None [] None None None))
  else if (v =? 145)%Z then Some (T145 (mkupd 0 [] [] [] [] 0 None [] None None None))
  else if (v =? 146)%Z then Some (T146 (mkname 0 0 [] None None None None None None None))
  else None.
