(** Vocabulary for the properties of transactions: what a transaction says, independent of how it is encoded. *)
From Verif Require Import Base Primitive Types Conditions Fulfillments ThreeBotTypes Txn Spec_Types Spec_Fulfil.

(** What an output pays: amount (in smallest units) and condition. *)
Definition pay (o : output) : N * cond := (o_value o, o_cond o).
(** What an input spends: the id of an output. *)
Definition spends (is : list input) : list bytes := map i_parent is.
Definition olist {A} (o : option (list A)) : list A := match o with Some l => l | None => [] end.

(** Everything a transaction states apart from signatures, fulfilments and what is looked up elsewhere. *)
Inductive content :=
| KStandard (cin : list bytes) (cout : list (N * cond)) (bin : list bytes) (bout : list (N * cond))
            (fees : list N) (data : bytes)
| KMinterDefinition (nonce : bytes) (c : cond) (fees : list N) (data : bytes)
| KCoinCreation (nonce : bytes) (cout : list (N * cond)) (fees : list N) (data : bytes)
| KConvert (to : bytes) (value : N) (cin : list bytes) (fee : N) (refund : option (N * cond))
| KERC20Coins (to : uh) (value fee : N) (block tx : bytes)
| KAddressRegistration (key : pubkey) (cin : list bytes) (fee : N) (refund : option (N * cond))
| KBotRegistration (addrs : list naddr) (names : list pystr) (months : Z) (cin : list bytes) (fee : N)
                   (refund : option (N * cond)) (key : pubkey)
| KBotUpdate (id : Z) (addr_add addr_del : list naddr) (name_add name_del : list pystr) (months : Z)
             (cin : list bytes) (fee : N) (refund : option (N * cond))
| KNameTransfer (sender receiver : Z) (names : list pystr) (cin : list bytes) (fee : N) (refund : option (N * cond)).
Definition content_of (t : txn) : content :=
  match t with
  | T1 t => KStandard (spends (s_cin t)) (map pay (s_cout t)) (spends (s_bin t)) (map pay (s_bout t)) (s_fees t) (s_data t)
  | TMint t => match m_new t with
               | MCond c => KMinterDefinition (m_nonce t) c (m_fees t) (m_data t)
               | MCoins os => KCoinCreation (m_nonce t) (map pay os) (m_fees t) (m_data t)
               end
  | T208 t => KConvert (c_addr t) (c_value t) (spends (c_cin t)) (fee (c_fee t)) (option_map pay (c_refund t))
  | T209 t => KERC20Coins (g_addr t) (g_value t) (fee (g_fee t)) (g_block t) (g_txid t)
  | T210 t => KAddressRegistration (opk (r_pk t)) (spends (olist (r_cin t))) (fee (r_fee t)) (option_map pay (r_refund t))
  | T144 t => KBotRegistration (b_addrs t) (b_names t) (b_months t) (spends (b_cin t)) (fee (b_fee t))
                (option_map pay (b_refund t)) (opk (b_pk t))
  | T145 t => KBotUpdate (u_id t) (u_addr_add t) (u_addr_del t) (u_name_add t) (u_name_del t) (u_months t)
                (spends (u_cin t)) (fee (u_fee t)) (option_map pay (u_refund t))
  | T146 t => KNameTransfer (n_sender t) (n_receiver t) (n_names t) (spends (olist (n_cin t))) (fee (n_fee t))
                (option_map pay (n_refund t))
  end.

(** All parts have the size their type declares. *)
Definition in_ok (i : input) : Prop := hash32 (i_parent i).
Definition out_ok (o : output) : Prop := full_cond (o_cond o).
Definition refund_ok (o : option output) : Prop := forall x, o = Some x -> out_ok x.
Definition na_ok (a : naddr) : Prop := na_type a <= 2 /\ (length (na_bytes a) < 64)%nat.
Definition bytes20 (b : bytes) : Prop := length b = 20%nat.
Definition sized (t : txn) : Prop :=
  match t with
  | T1 t => Forall in_ok (s_cin t) /\ Forall out_ok (s_cout t) /\ Forall in_ok (s_bin t) /\ Forall out_ok (s_bout t)
  | TMint t => length (m_nonce t) = 8%nat /\
               match m_new t with MCond c => full_cond c | MCoins os => Forall out_ok os end
  | T208 t => bytes20 (c_addr t) /\ Forall in_ok (c_cin t) /\ refund_ok (c_refund t)
  | T209 t => full_uh (g_addr t) /\ hash32 (g_block t) /\ hash32 (g_txid t)
  | T210 t => key32 (opk (r_pk t)) /\ Forall in_ok (olist (r_cin t)) /\ refund_ok (r_refund t)
  | T144 t => Forall na_ok (b_addrs t) /\ Forall ascii_str (b_names t) /\ Forall in_ok (b_cin t) /\
              refund_ok (b_refund t) /\ key32 (opk (b_pk t))
  | T145 t => Forall na_ok (u_addr_add t) /\ Forall na_ok (u_addr_del t) /\ Forall ascii_str (u_name_add t) /\
              Forall ascii_str (u_name_del t) /\ Forall in_ok (u_cin t) /\ refund_ok (u_refund t)
  | T146 t => Forall ascii_str (n_names t) /\ Forall in_ok (olist (n_cin t)) /\ refund_ok (n_refund t)
  end.

(** ** What a signature request hashes besides the transaction *)
Definition SENDER : bytes := s2b "sender".
Definition RECEIVER : bytes := s2b "receiver".
Definition REGISTRATION : bytes := s2b "registration".
(** The place a signature is for: the input at an index, with the signer's key and the swap secret as its kind demands,
    or one of the transaction's own signatures, marked by a word. *)
Inductive place :=
| PlainInput (i : nat)                        (* a single signature *)
| KeyInput (i : nat) (p : pubkey)             (* multi-signature, or atomic swap refund *)
| SecretInput (i : nat) (p : pubkey) (s : bytes)   (* atomic swap redeem *)
| Own (w : bytes)                             (* 'sender', 'receiver', 'registration' *)
| MintInput                                   (* the mint fulfilment, single signature *)
| MintKey (p : pubkey).                       (* the mint fulfilment, multi-signature *)
Definition extras_of (p : place) : list extra :=
  match p with
  | PlainInput i => [XInt (Z.of_nat i)]
  | KeyInput i k => [XInt (Z.of_nat i); XKey k]
  | SecretInput i k s => [XInt (Z.of_nat i); XKey k; XSecret s]
  | Own w => [XBytes w]
  | MintInput => []
  | MintKey k => [XKey k]
  end.
Definition place_ok (p : place) : Prop :=
  match p with
  | KeyInput _ k | MintKey k => key32 k
  | SecretInput _ k s => key32 k /\ hash32 s
  | _ => True
  end.
(** Two places of the same kind. *)
Definition same_kind (p q : place) : Prop :=
  match p, q with
  | PlainInput _, PlainInput _ | KeyInput _ _, KeyInput _ _ | SecretInput _ _ _, SecretInput _ _ _ | MintInput, MintInput
  | MintKey _, MintKey _ => True
  | Own v, Own w => length v = length w
  | _, _ => False
  end.

(** ** What the chain sees of a transaction: its content and all fulfilments and signatures. *)
(** An absent signature or secret is encoded like an empty one. *)
Definition plain_ff (f : ff) : ff :=
  match f with
  | FSingle p s => FSingle p (Some (odef s))
  | FSwap p s se => FSwap p (Some (odef s)) (Some (odef se))
  | FMulti ps => FMulti ps
  end.
Definition sig_bytes (s : bsig) : bytes := match s with Some (_, b) => b | None => [] end.
Definition fulfilled_inputs (is : list input) : list (bytes * ff) := map (fun i => (i_parent i, plain_ff (i_ff i))) is.
(** inputs with fulfilments, own signatures *)
Definition witnesses (t : txn) : list (bytes * ff) * list (bytes * ff) * list ff * list bytes :=
  match t with
  | T1 t => (fulfilled_inputs (s_cin t), fulfilled_inputs (s_bin t), [], [])
  | TMint t => ([], [], [plain_ff (match m_ff t with Some f => f | None => FSingle pk_default None end)], [])
  | T208 t => (fulfilled_inputs (c_cin t), [], [], [])
  | T209 t => ([], [], [], [])
  | T210 t => (fulfilled_inputs (olist (r_cin t)), [], [], [sig_bytes (r_sig t)])
  | T144 t => (fulfilled_inputs (b_cin t), [], [], [sig_bytes (b_sig t)])
  | T145 t => (fulfilled_inputs (u_cin t), [], [], [sig_bytes (u_sig t)])
  | T146 t => (fulfilled_inputs (olist (n_cin t)), [], [], [sig_bytes (n_ssig t); sig_bytes (n_rsig t)])
  end.

(** Fulfilments all of whose keys are 32 bytes; own signatures present, 64 bytes, written as array; and counts that fit
    the packed bytes of the 3Bot transactions (the library's limits are 10 addresses and 5 names). *)
Definition keys32 (f : ff) : Prop :=
  match f with FSingle p _ | FSwap p _ _ => key32 p | FMulti ps => Forall (fun q => key32 (fst q)) ps end.
Definition array64 (s : bsig) : Prop := exists b, s = Some (true, b) /\ sig64 b.
Definition le15 {A} (l : list A) : Prop := (length l <= 15)%nat.
Definition encodable (t : txn) : Prop :=
  match t with
  | T1 _ | T209 _ | TMint _ => True
  | T208 t => Forall (fun i => keys32 (i_ff i)) (c_cin t)
  | T210 t => Forall (fun i => keys32 (i_ff i)) (olist (r_cin t)) /\ array64 (r_sig t)
  | T144 t => Forall (fun i => keys32 (i_ff i)) (b_cin t) /\ array64 (b_sig t) /\ le15 (b_addrs t) /\ le15 (b_names t)
  | T145 t => Forall (fun i => keys32 (i_ff i)) (u_cin t) /\ array64 (u_sig t) /\ le15 (u_addr_add t) /\ le15 (u_addr_del t) /\
              le15 (u_name_add t) /\ le15 (u_name_del t)
  | T146 t => Forall (fun i => keys32 (i_ff i)) (olist (n_cin t)) /\ array64 (n_ssig t) /\ array64 (n_rsig t) /\ le15 (n_names t)
  end.

(** ** Output identifiers *)
Inductive okind := CoinOut | StakeOut.
(** the id of output [i] of kind [k] of [t], as the library computes it *)
Definition output_id (H : bytes -> bytes) (k : okind) (t : txn) (i : Z) : res bytes :=
  match k with CoinOut => coin_outputid H t i | StakeOut => blockstake_outputid H t i end.
Definition outputs (k : okind) (t : txn) : list output :=
  match k with CoinOut => coin_outputs t | StakeOut => blockstake_outputs t end.
(** [d] is what is hashed for the id of output [i] of kind [k]: a marker, the data of the transaction id, the index *)
Definition output_id_data (H : bytes -> bytes) (k : okind) (t : txn) (i : Z) (d : bytes) : Prop :=
  outputid_input H (match k with CoinOut => coin_spec t | StakeOut => stake_spec t end) t i = Ok d.

(** What a legacy (version 0) transaction tells of an input and an output: spent id, key, signature; amount and address. *)
Definition legacy_input (i : input) : option (bytes * pubkey * bytes) :=
  match i_ff i with FSingle p s | FSwap p s _ => Some (i_parent i, p, odef s) | FMulti _ => None end.
Definition legacy_output (H : bytes -> bytes) (o : output) : option (N * uh) :=
  match cond_unlockhash H (o_cond o) with Ok u => Some (o_value o, u) | Err _ => None end.

(** ** Further vocabulary for signature data *)
Definition own_word (p : place) : option bytes := match p with Own w => Some w | _ => None end.
Definition word (w : bytes) : Prop := w = SENDER \/ w = RECEIVER \/ w = REGISTRATION.
(** an input index below 2^40, or one of the marker words *)
Definition index_small (p : place) : Prop :=
  match p with PlainInput i | KeyInput i _ | SecretInput i _ _ => (Z.of_nat i < 2 ^ 40)%Z | Own w => word w | _ => False end.
Definition own_signatures (t : txn) : bool := match t with T144 _ | T145 _ | T146 _ | T210 _ => true | _ => false end.
Definition few {A} (l : list A) : Prop := (Z.of_nat (length l) < 2 ^ 40)%Z.
Definition keyed (p : place) : option pubkey := match p with KeyInput _ k | SecretInput _ k _ | MintKey k => Some k | _ => None end.
(** what legacy signature data tell of an output and an input: amount and address; spent id and the address of the key *)
Definition legacy_pay (H : bytes -> bytes) (o : output) : N * res uh := (o_value o, cond_unlockhash H (o_cond o)).
Definition legacy_spend (H : bytes -> bytes) (i : input) : bytes * res uh :=
  (i_parent i, do p <- ff_pk (i_ff i); pk_unlockhash H p).
Definition legacy_out_ok (H : bytes -> bytes) (o : output) : Prop := exists u, cond_unlockhash H (o_cond o) = Ok u /\ full_uh u.
(** The lists of names and addresses of a 3Bot transaction that directly follow the signer in the signature data are short
    (the library's limits are 10 addresses and 5 names). *)
Definition short_bot (t : txn) : Prop :=
  match t with
  | T144 t => (length (b_addrs t) < 128)%nat
  | T145 t => (length (u_addr_add t) < 128)%nat
  | T146 t => (length (n_names t) < 128)%nat
  | _ => False
  end.
