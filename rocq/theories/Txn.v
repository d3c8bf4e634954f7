(** Model of /repo/tfchain/types/IO.py and /repo/tfchain/types/transactions/*.py: the data of each transaction version,
    its binary encodings and what is hashed for signatures and identifiers. *)
From Verif Require Import Base Encoders Currency Primitive Types Conditions Fulfillments ThreeBotTypes.

(** ** Inputs and outputs *)
(** A coin amount is its number of smallest units (10^-9 TFT), a block stake amount its integer: all a transaction
    does with an amount is to encode it or print it (Currency.v [csia], [criv], [cjson]; see [coin_amount_sia] ...
    in TxnFacts.v).  types/IO.py:120-192 (CoinOutput) and 307-379 (BlockstakeOutput). *)
Record output := mkout { o_value : N; o_cond : cond; o_id : bytes }.
(** types/IO.py:8-117 (CoinInput) and 195-304 (BlockstakeInput); [i_out] is [_parent_output].  A BlockstakeInput always has
    a parent output (251-263), by default the one of [out_default]. *)
Record input := mkin { i_parent : bytes; i_ff : ff; i_out : option output }.
(** types/IO.py:125-132, 312-319: [CoinOutput()] / [BlockstakeOutput()] *)
Definition out_default : output := mkout 0 CNil [].

(** types/PrimitiveTypes.py:334-343 for an amount in units *)
Definition amt_sia (n : N) : res bytes := sia_slice (min_be n).
(** types/PrimitiveTypes.py:345-353 for an amount in units *)
Definition amt_riv (n : N) : res bytes := riv_slice (min_be n).

(** types/IO.py:84-88, 271-275; the parent id is a Hash, a fixed-size array *)
Definition in_sia (i : input) : res bytes := Ok (i_parent i) +++ ff_sia (i_ff i).
(** types/IO.py:90-94, 277-281 *)
Definition in_riv (i : input) : res bytes := Ok (i_parent i) +++ ff_riv (i_ff i).
(** types/IO.py:182-186, 369-373 *)
Definition out_sia (o : output) : res bytes := amt_sia (o_value o) +++ cond_sia (o_cond o).
(** types/IO.py:188-192, 375-379 *)
Definition out_riv (o : output) : res bytes := amt_riv (o_value o) +++ cond_riv (o_cond o).

(** ** Transactions *)
(** types/transactions/Standard.py:8-20 *)
Record tx_std := mkstd {
  s_legacy : bool;
  s_cin : list input; s_cout : list output;
  s_bin : list input; s_bout : list output;
  s_fees : list N; s_data : bytes }.
(** types/transactions/Minting.py:14-24, 206-216.  [m_new] is what the two versions differ in: the new mint condition (128) or the
    coin outputs (129). *)
Inductive mint := MCond (c : cond) | MCoins (os : list output).
(** types/transactions/Minting.py:14-24, 206-216 *)
Record tx_mint := mkmint {
  m_ff : option ff; m_new : mint; m_fees : list N; m_data : bytes; m_nonce : bytes; m_parent : option cond }.
(** types/transactions/ERC20.py:15-22 *)
Record tx_conv := mkconv {
  c_addr : bytes; c_value : N; c_fee : option N; c_cin : list input; c_refund : option output }.
(** types/transactions/ERC20.py:233-240 *)
Record tx_gen := mkgen { g_addr : uh; g_value : N; g_fee : option N; g_block : bytes; g_txid : bytes }.
(** types/transactions/ERC20.py:446-457, types/transactions/ThreeBot.py:269-279: Signatures kept by a transaction itself: [None], or its bytes and whether it is encoded as an array. *)
Definition bsig := option (bool * bytes).
(** types/transactions/ERC20.py:414-423; [_coin_inputs] is None until it is assigned *)
Record tx_reg := mkreg {
  r_pk : option pubkey; r_sig : bsig; r_fee : option N; r_cin : option (list input); r_refund : option output }.
(** types/transactions/ThreeBot.py:105-115 *)
Record tx_bot := mkbot {
  b_addrs : list naddr; b_names : list pystr; b_months : Z; b_fee : option N;
  b_cin : list input; b_refund : option output; b_pk : option pubkey; b_sig : bsig }.
(** types/transactions/ThreeBot.py:445-458; an absent bot id is 0 (483-487) *)
Record tx_upd := mkupd {
  u_id : Z; u_addr_add : list naddr; u_addr_del : list naddr; u_name_add : list pystr; u_name_del : list pystr;
  u_months : Z; u_fee : option N; u_cin : list input; u_refund : option output; u_sig : bsig; u_parent : option pubkey }.
(** types/transactions/ThreeBot.py:887-899 *)
Record tx_name := mkname {
  n_sender : Z; n_receiver : Z; n_names : list pystr; n_fee : option N; n_cin : option (list input);
  n_refund : option output; n_ssig : bsig; n_rsig : bsig; n_spk : option pubkey; n_rpk : option pubkey }.

(** types/transactions/Base.py:29-45, one constructor per class *)
Inductive txn :=
| T1 (t : tx_std)
| TMint (t : tx_mint)
| T208 (t : tx_conv)
| T209 (t : tx_gen)
| T210 (t : tx_reg)
| T144 (t : tx_bot)
| T145 (t : tx_upd)
| T146 (t : tx_name).

(** types/transactions/Base.py:29-41 and the [version] property of each class; a legacy transaction also reports STANDARD
    (Standard.py:105-107). *)
Definition version (t : txn) : Z :=
  match t with
  | T1 _ => 1
  | TMint m => match m_new m with MCond _ => 128 | MCoins _ => 129 end
  | T208 _ => 208 | T209 _ => 209 | T210 _ => 210
  | T144 _ => 144 | T145 _ => 145 | T146 _ => 146
  end.

(** The zero bytes in types/transactions/Minting.py:12 and types/transactions/Base.py:211-217 *)
Definition zer (n : nat) : bytes := repeatN 0 n.
(** types/transactions/Minting.py:12, 204, types/transactions/ERC20.py:13, 231, 408, types/transactions/ThreeBot.py:103, 443, 885: [_SPECIFIER] of each class *)
Definition specifier (t : txn) : bytes :=
  match t with
  | T1 _ => []
  | TMint m => match m_new m with
               | MCond _ => s2b "minter defin tx" ++ zer 1
               | MCoins _ => s2b "coin mint tx" ++ zer 4
               end
  | T208 _ => s2b "erc20 convert tx"
  | T209 _ => s2b "erc20 coingen tx"
  | T210 _ => s2b "erc20 addrreg tx"
  | T144 _ => s2b "bot register tx" ++ zer 1
  | T145 _ => s2b "bot recupdate tx"
  | T146 _ => s2b "bot nametrans tx"
  end.

(** Getters for absent values: fees (types/transactions/ERC20.py:117-121), public keys, signatures *)
Definition fee (o : option N) : N := match o with Some n => n | None => 0 end.
(** types/transactions/ERC20.py:429-433, types/transactions/ThreeBot.py:281-285 *)
Definition opk (o : option pubkey) : pubkey := match o with Some p => p | None => pk_default end.
(** types/transactions/ERC20.py:130-134 *)
Definition miner (o : option N) : list N := match o with Some n => [n] | None => [] end.
(** types/transactions/ERC20.py:77-84 *)
Definition refunds (o : option output) : list output := match o with Some x => [x] | None => [] end.
(** types/transactions/ERC20.py:459-465, types/transactions/ThreeBot.py:944-950: [len(self.coin_inputs)] of V210 and V146 on None *)
Definition got {A} (o : option A) : res A := match o with Some x => Ok x | None => Err TypeError end.

(** [coin_inputs], [coin_outputs], [blockstake_inputs], [blockstake_outputs], [miner_fees], [data] of types/transactions/Base.py:126-172
    and their overrides.  For V209 see ERC20.py:320-326. *)
Definition coin_inputs (t : txn) : res (list input) :=
  match t with
  | T1 t => Ok (s_cin t) | TMint _ | T209 _ => Ok []
  | T208 t => Ok (c_cin t) | T210 t => got (r_cin t)
  | T144 t => Ok (b_cin t) | T145 t => Ok (u_cin t) | T146 t => got (n_cin t)
  end.
(** types/transactions/Base.py:134-140, Standard.py:126-132, Minting.py:254-260, ERC20.py:77-84, 320-326, 482-489, ThreeBot.py:159-166, 520-527, 965-972 *)
Definition coin_outputs (t : txn) : list output :=
  match t with
  | T1 t => s_cout t
  | TMint t => match m_new t with MCond _ => [] | MCoins os => os end
  | T208 t => refunds (c_refund t)
  | T209 t => [mkout (g_value t) (CUnlockHash (g_addr t)) []]
  | T210 t => refunds (r_refund t)
  | T144 t => refunds (b_refund t) | T145 t => refunds (u_refund t) | T146 t => refunds (n_refund t)
  end.
(** types/transactions/Base.py:142-148, Standard.py:152-157 *)
Definition blockstake_inputs (t : txn) : list input := match t with T1 t => s_bin t | _ => [] end.
(** types/transactions/Base.py:150-156, Standard.py:168-173 *)
Definition blockstake_outputs (t : txn) : list output := match t with T1 t => s_bout t | _ => [] end.
(** types/transactions/Base.py:158-164, Standard.py:196-202, Minting.py:30-36, 222-228, ERC20.py:130-134, 301-305, 547-551, ThreeBot.py:253-257, 660-664, 1036-1040 *)
Definition miner_fees (t : txn) : list N :=
  match t with
  | T1 t => s_fees t | TMint t => m_fees t
  | T208 t => miner (c_fee t) | T209 t => miner (g_fee t) | T210 t => miner (r_fee t)
  | T144 t => miner (b_fee t) | T145 t => miner (u_fee t) | T146 t => miner (n_fee t)
  end.

(** ** Extra objects handed to the signature hash: an index, a specifier, a key, a secret *)
(** types/transactions/Standard.py:228-266: [e.add(extra_object)], Sia *)
Definition x_sia (x : extra) : res bytes :=
  match x with
  | XInt z => sia_int z
  | XKey p => pk_sia p
  | XSecret s | XBytes s => Ok s
  end.
(** types/transactions/ERC20.py:136-168: [e.add(extra_object)], Rivine *)
Definition x_riv (x : extra) : res bytes :=
  match x with
  | XInt z => riv_int 8 z
  | XKey p => pk_riv p
  | XSecret s | XBytes s => Ok s
  end.
(** types/transactions/Standard.py:228-266 *)
Definition xs_sia (xs : list extra) : res bytes := rconcat (map x_sia xs).
(** types/transactions/ERC20.py:136-168 *)
Definition xs_riv (xs : list extra) : res bytes := rconcat (map x_riv xs).

(** A value written as array (types/transactions/Minting.py:125-151), and types/transactions/Standard.py:228-266: [e.add(len(inputs))] and then each parent id; the parent id as sum type of array *)
Definition arr (b : bytes) : res bytes := Ok b.
(** types/transactions/Standard.py:228-266 *)
Definition ids_sia (is : list input) : res bytes := sia_list arr (map i_parent is).
(** types/transactions/ERC20.py:136-168 *)
Definition ids_riv (is : list input) : res bytes :=
  riv_int 8 (Z.of_nat (length is)) +++ rconcat (map arr (map i_parent is)).

(** types/transactions/ERC20.py:136-168: [if self._refund_coin_output is None: e.add_int8(0) else: e.add_int8(1); e.add(...)] *)
Definition refund_riv (o : option output) : res bytes :=
  match o with None => riv_int 1 0 | Some x => riv_int 1 1 +++ out_riv x end.
(** Nothing written (types/transactions/ThreeBot.py:345-380) *)
Definition nil_w : res bytes := Ok [].
(** types/transactions/ThreeBot.py:345-380: the encoding of a refund output whose presence is flagged elsewhere *)
Definition maybe_out_riv (o : option output) : res bytes := match o with None => nil_w | Some x => out_riv x end.
(** types/FulfillmentTypes.py:83-91; the default of the getter is an empty array *)
Definition bsig_riv (s : bsig) : res bytes :=
  match s with None => nil_w | Some (true, b) => Ok b | Some (false, b) => riv_slice b end.

(** types/transactions/ERC20.py:410 *)
Definition REG_FEE : N := 10 * 10 ^ 9.   (* ERC20.py:410 '10 TFT' *)

Section Hash.
Variable H : bytes -> bytes.

(** types/transactions/Standard.py:268-300: [ci.fulfillment.public_key] does not exist for a multi-signature fulfilment. *)
Definition ff_pk (f : ff) : res pubkey :=
  match f with FSingle p _ | FSwap p _ _ => Ok p | FMulti _ => Err AttributeError end.
(** types/transactions/Standard.py:268-300 *)
Definition legacy_in_sig (i : input) : res bytes :=
  Ok (i_parent i) +++ (do p <- ff_pk (i_ff i); do u <- pk_unlockhash H p; uh_sia u).
(** types/transactions/Standard.py:268-300, 355-389 *)
Definition legacy_out (o : output) : res bytes :=
  amt_sia (o_value o) +++ (do u <- cond_unlockhash H (o_cond o); uh_sia u).

(** [_signature_hash_input_get]: types/transactions/Standard.py:228-266, 268-300, Minting.py:125-151 and 319-345, ERC20.py:136-168, 328-351 and
    562-594, ThreeBot.py:304-340, 711-748 and 1106-1142 *)
Definition sig_input (t : txn) (xs : list extra) : res bytes :=
  match t with
  | T1 t =>
      if s_legacy t then
        xs_sia xs +++ (rconcat (map legacy_in_sig (s_cin t)) +++ (sia_list legacy_out (s_cout t)
        +++ (rconcat (map legacy_in_sig (s_bin t)) +++ (sia_list legacy_out (s_bout t)
        +++ (sia_list amt_sia (s_fees t) +++ sia_slice (s_data t))))))
      else
        sia_byte 1 +++ (xs_sia xs +++ (ids_sia (s_cin t) +++ (sia_list out_sia (s_cout t)
        +++ (ids_sia (s_bin t) +++ (sia_list out_sia (s_bout t)
        +++ (sia_list amt_sia (s_fees t) +++ sia_slice (s_data t)))))))
  | TMint m =>
      sia_byte (version t) +++ (arr (specifier t) +++ (arr (m_nonce m) +++ (xs_sia xs
      +++ (match m_new m with MCond c => cond_sia c | MCoins os => sia_list out_sia os end
      +++ (sia_list amt_sia (m_fees m) +++ sia_slice (m_data m))))))
  | T208 c =>
      riv_int 1 208 +++ (arr (specifier t) +++ (arr (c_addr c) +++ (amt_riv (c_value c) +++ (xs_riv xs
      +++ (ids_riv (c_cin c) +++ (amt_riv (fee (c_fee c)) +++ refund_riv (c_refund c)))))))
  | T209 g =>
      sia_byte 209 +++ (arr (specifier t) +++ (xs_sia xs +++ (uh_sia (g_addr g) +++ (amt_sia (g_value g)
      +++ (amt_sia (fee (g_fee g)) +++ (arr (g_block g) +++ arr (g_txid g)))))))
  | T210 r =>
      do cin <- got (r_cin r);
      riv_int 1 210 +++ (arr (specifier t) +++ (pk_riv (opk (r_pk r)) +++ (xs_riv xs +++ (ids_riv cin
      +++ (amt_riv REG_FEE +++ (amt_riv (fee (r_fee r)) +++ refund_riv (r_refund r)))))))
  | T144 b =>
      riv_int 1 144 +++ (arr (specifier t) +++ (xs_riv xs +++ (riv_list na_riv (b_addrs b)
      +++ (riv_list bn_riv (b_names b) +++ (riv_int 1 (b_months b) +++ (ids_riv (b_cin b)
      +++ (amt_riv (fee (b_fee b)) +++ (refund_riv (b_refund b) +++ pk_riv (opk (b_pk b))))))))))
  | T145 u =>
      riv_int 1 145 +++ (arr (specifier t) +++ (riv_int 4 (u_id u) +++ (xs_riv xs
      +++ (riv_list na_riv (u_addr_add u) +++ (riv_list na_riv (u_addr_del u)
      +++ (riv_list bn_riv (u_name_add u) +++ (riv_list bn_riv (u_name_del u)
      +++ (riv_int 1 (u_months u) +++ (ids_riv (u_cin u) +++ (amt_riv (fee (u_fee u)) +++ refund_riv (u_refund u)))))))))))
  | T146 n =>
      do cin <- got (n_cin n);
      riv_int 1 146 +++ (arr (specifier t) +++ (riv_int 4 (n_sender n) +++ (riv_int 4 (n_receiver n) +++ (xs_riv xs
      +++ (riv_list bn_riv (n_names n) +++ (ids_riv cin +++ (amt_riv (fee (n_fee n)) +++ refund_riv (n_refund n))))))))
  end.
(** types/transactions/Base.py:181-187 *)
Definition signature_hash (t : txn) (xs : list extra) : res bytes := do d <- sig_input t xs; Ok (H d).

(** ** Binary encoding *)
(** types/transactions/Standard.py:355-389 *)
Definition legacy_in (i : input) : res bytes :=
  Ok (i_parent i) +++ (Ok [1] +++
  ((do p <- ff_pk (i_ff i); do d <- pk_sia p; sia_slice d) +++
   (match i_ff i with FSingle _ s | FSwap _ s _ => sig_sia (odef s) | FMulti _ => Err AttributeError end))).
(** types/transactions/ThreeBot.py:48-99 BotMonthsAndFlagsData *)
Definition maf (months : Z) (addrs names refund : bool) : res bytes :=
  do _ <- guard ((0 <=? months) && (months <=? 24))%Z TypeError;
  riv_int 1 (Z.of_N (N.lor (N.lor (N.lor (Z.to_N months) (if addrs then 32 else 0)) (if names then 64 else 0))
                           (if refund then 128 else 0))).
(** types/transactions/ThreeBot.py:345-380: [a | (b << 4)] as one byte *)
Definition pair_len (a b : nat) : res bytes := riv_int 1 (Z.of_N (N.lor (N.of_nat a) (N.shiftl (N.of_nat b) 4))).
(** types/transactions/ThreeBot.py:345-380: [len(l) > 0] *)
Definition nonempty {A} (l : list A) : bool := match l with [] => false | _ => true end.
(** types/transactions/ThreeBot.py:345-380: [is not None] *)
Definition is_some {A} (o : option A) : bool := match o with Some _ => true | None => false end.
(** [e.add_all(...)] with coin inputs that are None: rivine.py:74-84 turns the TypeError into a ValueError *)
Definition ins_riv (o : option (list input)) : res bytes :=
  match o with Some l => riv_list in_riv l | None => Err ValueError end.

(** [_binary_encode_data]: types/transactions/Base.py:257-271, Standard.py:355-389, Minting.py:156-165 and 350-359, ERC20.py:173-190,
    356-368 and 599-617, ThreeBot.py:345-380, 753-801 and 1147-1183 *)
Definition data_bytes (t : txn) : res bytes :=
  match t with
  | T1 t =>
      if s_legacy t then
        sia_list legacy_in (s_cin t) +++ (sia_list legacy_out (s_cout t) +++ (sia_list legacy_in (s_bin t)
        +++ (sia_list legacy_out (s_bout t) +++ (sia_list amt_sia (s_fees t) +++ sia_slice (s_data t)))))
      else
        sia_list in_sia (s_cin t) +++ (sia_list out_sia (s_cout t) +++ (sia_list in_sia (s_bin t)
        +++ (sia_list out_sia (s_bout t) +++ (sia_list amt_sia (s_fees t) +++ sia_slice (s_data t)))))
  | TMint m =>
      arr (m_nonce m) +++ (ff_sia (match m_ff m with Some f => f | None => FSingle pk_default None end)
      +++ (match m_new m with MCond c => cond_sia c | MCoins os => sia_list out_sia os end
      +++ (sia_list amt_sia (m_fees m) +++ sia_slice (m_data m))))
  | T208 c =>
      arr (c_addr c) +++ (amt_riv (c_value c) +++ (amt_riv (fee (c_fee c)) +++ (riv_list in_riv (c_cin c)
      +++ refund_riv (c_refund c))))
  | T209 g =>
      uh_riv (g_addr g) +++ (amt_riv (g_value g) +++ (amt_riv (fee (g_fee g)) +++ (arr (g_block g) +++ arr (g_txid g))))
  | T210 r =>
      pk_riv (opk (r_pk r)) +++ (bsig_riv (r_sig r) +++ (amt_riv REG_FEE +++ (amt_riv (fee (r_fee r))
      +++ (ins_riv (r_cin r) +++ refund_riv (r_refund r)))))
  | T144 b =>
      maf (b_months b) (nonempty (b_addrs b)) (nonempty (b_names b)) (is_some (b_refund b))
      +++ (pair_len (length (b_addrs b)) (length (b_names b))
      +++ (rconcat (map na_riv (b_addrs b)) +++ (rconcat (map bn_riv (b_names b))
      +++ (amt_riv (fee (b_fee b)) +++ (riv_list in_riv (b_cin b) +++ (maybe_out_riv (b_refund b)
      +++ (pk_riv (opk (b_pk b)) +++ bsig_riv (b_sig b))))))))
  | T145 u =>
      riv_int 4 (u_id u)
      +++ (maf (u_months u) (nonempty (u_addr_add u) || nonempty (u_addr_del u))
               (nonempty (u_name_add u) || nonempty (u_name_del u)) (is_some (u_refund u))
      +++ ((if nonempty (u_addr_add u) || nonempty (u_addr_del u)
            then pair_len (length (u_addr_add u)) (length (u_addr_del u))
                 +++ (rconcat (map na_riv (u_addr_add u)) +++ rconcat (map na_riv (u_addr_del u)))
            else nil_w)
      +++ ((if nonempty (u_name_add u) || nonempty (u_name_del u)
            then pair_len (length (u_name_add u)) (length (u_name_del u))
                 +++ (rconcat (map bn_riv (u_name_add u)) +++ rconcat (map bn_riv (u_name_del u)))
            else nil_w)
      +++ (amt_riv (fee (u_fee u)) +++ (riv_list in_riv (u_cin u) +++ (maybe_out_riv (u_refund u)
      +++ bsig_riv (u_sig u)))))))
  | T146 n =>
      riv_int 4 (n_sender n) +++ (bsig_riv (n_ssig n) +++ (riv_int 4 (n_receiver n) +++ (bsig_riv (n_rsig n)
      +++ (riv_int 1 (Z.of_N (N.lor (N.of_nat (length (n_names n))) (if is_some (n_refund n) then 16 else 0)))
      +++ (rconcat (map bn_riv (n_names n)) +++ (amt_riv (fee (n_fee n)) +++ (ins_riv (n_cin n)
      +++ maybe_out_riv (n_refund n))))))))
  end.

(** [binary_encode]: types/transactions/Base.py:250-255, types/transactions/Standard.py:343-353 *)
Definition binary_encode (t : txn) : res bytes :=
  match t with
  | T1 s => if s_legacy s then Ok [0] +++ data_bytes t else Ok [1] +++ (do d <- data_bytes t; sia_slice d)
  | _ => Ok [Z.to_N (version t)] +++ data_bytes t
  end.
(** [_id_input_compute]: types/transactions/Base.py:243-248, Minting.py:153-154, 347-348, ERC20.py:170-171, 353-354, 596-597,
    ThreeBot.py:342-343, 750-751, 1144-1145 *)
Definition id_input (t : txn) : res bytes :=
  match t with T1 _ => binary_encode t | _ => Ok (specifier t) +++ data_bytes t end.

(** ** Output identifiers: types/transactions/Base.py:211-241, types/transactions/Standard.py:331-341 *)
Definition is_legacy (t : txn) : bool := match t with T1 s => s_legacy s | _ => false end.
(** types/transactions/Base.py:211-213, Standard.py:331-335 *)
Definition coin_spec (t : txn) : bytes := s2b "coin output" ++ zer (if is_legacy t then 4 else 5).
(** types/transactions/Base.py:215-217, Standard.py:337-341 *)
Definition stake_spec (t : txn) : bytes := s2b "blstake output" ++ zer (if is_legacy t then 1 else 2).
(** types/transactions/Base.py:235-241 *)
Definition outputid_input (spec : bytes) (t : txn) (index : Z) : res bytes :=
  Ok spec +++ (id_input t +++ sia_int index).
(** types/transactions/Base.py:219-225 *)
Definition coin_outputid (t : txn) (index : Z) : res bytes :=
  do _ <- guard ((0 <=? index) && (index <? Z.of_nat (length (coin_outputs t))))%Z ValueError;
  do d <- outputid_input (coin_spec t) t index; Ok (H d).
(** types/transactions/Base.py:227-233: the bound is that of the *coin* outputs *)
Definition blockstake_outputid (t : txn) (index : Z) : res bytes :=
  do _ <- guard ((0 <=? index) && (index <? Z.of_nat (length (coin_outputs t))))%Z ValueError;
  do d <- outputid_input (stake_spec t) t index; Ok (H d).

End Hash.
