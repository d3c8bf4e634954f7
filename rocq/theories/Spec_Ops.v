(** Specification vocabulary for 3Bot transactions and wallet operations (C36, C41, C42), independent of the code. *)
From Verif Require Import Base Types Conditions Fulfillments ThreeBotTypes Txn Wallet Spec_Wallet Spec_Fulfil Spec_Sign.

(** ** Price list, in smallest units *)
Definition TFT : N := 1000000000.
(** ten TFT a month, 30 percent off from twelve months on, half price from two years on *)
Definition month_price (m : N) : N :=
  if m <? 12 then 10 * m * TFT else if m <? 24 then 7 * m * TFT else 5 * m * TFT.
Definition count {A} (l : list A) : N := N.of_nat (length l).
(** registration: 90 TFT, the months, 50 TFT for every name but the first;
    update: the months, 20 TFT if any address is added or removed, 50 TFT for every name added;
    name transfer: 50 TFT for every name *)
Definition price (t : txn) : N :=
  match t with
  | T144 b => 90 * TFT + month_price (Z.to_N (b_months b)) + 50 * (count (b_names b) - 1) * TFT
  | T145 u => month_price (Z.to_N (u_months u))
              + (if count (u_addr_add u) + count (u_addr_del u) =? 0 then 0 else 20 * TFT) + 50 * count (u_name_add u) * TFT
  | T146 n => 50 * count (n_names n) * TFT
  (* beside the miner fee: the amount sent to Ethereum, ten TFT for registering an address *)
  | T208 c => c_value c
  | T210 _ => 10 * TFT
  | _ => 0
  end.

(** ** Protocol limits *)
(** an address that fits its length byte, a name that is one *)
Definition address_ok (a : naddr) : Prop := na_type a <= 2 /\ (length (na_bytes a) <= 63)%nat.
Definition text_ok (s : pystr) : Prop := ascii_str s /\ (length s <= 63)%nat.
Definition limits (t : txn) : Prop :=
  match t with
  | T144 b => (length (b_names b) <= 5)%nat /\ (length (b_addrs b) <= 10)%nat /\ (0 <= b_months b <= 24)%Z
  | T145 u => (length (u_name_add u) <= 5)%nat /\ (length (u_name_del u) <= 5)%nat /\
              (length (u_addr_add u) <= 10)%nat /\ (length (u_addr_del u) <= 10)%nat /\ (0 <= u_months u <= 24)%Z /\ (0 <= u_id u)%Z
  | T146 n => (length (n_names n) <= 5)%nat /\ (0 <= n_sender n)%Z /\ (0 <= n_receiver n)%Z
  | _ => False
  end.
Definition lists_ok (t : txn) : Prop :=
  match t with
  | T144 b => Forall text_ok (b_names b) /\ Forall address_ok (b_addrs b)
  | T145 u => Forall text_ok (u_name_add u) /\ Forall text_ok (u_name_del u) /\ Forall address_ok (u_addr_add u) /\ Forall address_ok (u_addr_del u)
  | T146 n => Forall text_ok (n_names n)
  | _ => True
  end.

Definition some {A} (o : option A) : bool := match o with Some _ => true | None => false end.

(** ** Transactions without their signatures *)
Definition blank (i : input) : input := mkin (i_parent i) (FSingle pk_default None) (i_out i).
Definition unsigned (t : txn) : txn :=
  match t with
  | T1 t => T1 (mkstd (s_legacy t) (map blank (s_cin t)) (s_cout t) (map blank (s_bin t)) (s_bout t) (s_fees t) (s_data t))
  | TMint m => TMint (mkmint (option_map (fun _ => FSingle pk_default None) (m_ff m)) (m_new m) (m_fees m) (m_data m) (m_nonce m) (m_parent m))
  | T208 t => T208 (mkconv (c_addr t) (c_value t) (c_fee t) (map blank (c_cin t)) (c_refund t))
  | T209 t => T209 t
  | T210 t => T210 (mkreg (r_pk t) None (r_fee t) (option_map (map blank) (r_cin t)) (r_refund t))
  | T144 t => T144 (mkbot (b_addrs t) (b_names t) (b_months t) (b_fee t) (map blank (b_cin t)) (b_refund t) (b_pk t) None)
  | T145 t => T145 (mkupd (u_id t) (u_addr_add t) (u_addr_del t) (u_name_add t) (u_name_del t) (u_months t) (u_fee t)
                          (map blank (u_cin t)) (u_refund t) None (u_parent t))
  | T146 t => T146 (mkname (n_sender t) (n_receiver t) (n_names t) (n_fee t) (option_map (map blank) (n_cin t)) (n_refund t)
                           None None (n_spk t) (n_rpk t))
  end.
(** ** Completely signed: as many signatures as each spent output (or the mint condition) asks for, and the transaction's own *)
Definition enough (f : ff) (c : cond) : Prop :=
  match cond_unwrap c with
  | CMulti _ n => (n <= Z.of_nat (length (signatures f)))%Z
  | _ => signatures f <> []
  end.
Definition complete (t : txn) : Prop :=
  (exists ins, coin_inputs t = Ok ins /\ Forall (fun i => exists o, i_out i = Some o /\ enough (i_ff i) (o_cond o)) ins) /\
  Forall (fun s => some (snd s) = true) (own_slots t) /\
  match t with TMint m => exists c f, m_parent m = Some c /\ m_ff m = Some f /\ enough f c | _ => True end.

(** ** Funding *)
(** the input spends the output, whatever its fulfilment *)
Definition takes (i : input) (o : output) : Prop := i_parent i = o_id o /\ i_out i = Some o.
(** the transaction pays [pays], the miner fee and [cost]; it spends at most 99 of the outputs that may be used, and the
    remainder goes back to the refund recipient *)
Definition funded (H : bytes -> bytes) (w : wbal) (primary : uh) (source : option (list uh)) (refund : option cond)
    (miner_fee : N) (pays : list output) (cost : N) (t : txn) : Prop :=
  conserves t cost /\ miner_fees t = [miner_fee] /\
  exists ins used rem, coin_inputs t = Ok ins /\ Forall2 takes ins used /\ selection used (pool H w source) /\ (length used <= 99)%nat /\
    coin_outputs t = pays ++ change rem (refund_to w primary source refund).

(** a transaction whose coin outputs carry no ids *)
Definition nameless (t : txn) : txn :=
  match t with
  | T1 t => T1 (mkstd (s_legacy t) (s_cin t) (map (fun o => mkout (o_value o) (o_cond o) []) (s_cout t)) (s_bin t) (s_bout t) (s_fees t) (s_data t))
  | t => t
  end.
