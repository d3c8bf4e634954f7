(** Vocabulary for reading transactions from JSON (C80): what a JSON value says, field by field.  Further fields may be there.  Conditions and fulfilments are
    said as in Spec_Parse.v; keys, numbers and the digits of amounts are read by the functions of C08, C14, ...; none of the code reading transactions is used. *)
From Verif Require Import Base Primitive Currency Spec_Currency Types Conditions Fulfillments ThreeBotTypes Spec_ThreeBot Txn Spec_Parse.

(** what Python takes for false *)
Definition nothing (j : json) : Prop := j = JNull \/ j = JBool false \/ j = JNum 0 \/ j = JStr [] \/ j = JArr [] \/ j = JObj [].
(** the value of a field, or a default if there is no such field *)
Definition said (k : string) (d j v : json) : Prop := at_key k j v \/ (no_key_at k j /\ v = d).
(** there is no such field: in an object no such key, in a list no such text, in a text no such part *)
Definition lacks (k : string) (j : json) : Prop :=
  match j with
  | JObj l => jfind k l = None
  | JArr l => ~ In (JStr (s2b k)) l
  | JStr s => ~ exists a b, s = a ++ s2b k ++ b
  | _ => False
  end.
(** an optional field, with what it is without *)
Definition maybe {A} (k : string) (P : json -> A -> Prop) (d : A) (j : json) (a : A) : Prop := (lacks k j /\ a = d) \/ exists v, at_key k j v /\ P v a.
Definition some {A} (P : json -> A -> Prop) (j : json) (a : option A) : Prop := exists x, a = Some x /\ P j x.
(** a list, none if nothing is there *)
Definition elements {A} (P : json -> A -> Prop) (v : json) (l : list A) : Prop :=
  (nothing v /\ l = []) \/ exists vs, jelems v = Ok vs /\ Forall2 P vs l.
Definition many {A} (k : string) (P : json -> A -> Prop) (j : json) (l : list A) : Prop := exists v, said k (JArr []) j v /\ elements P v l.
(** a number, 0 if nothing is there *)
Definition says_number (k : string) (j : json) (z : Z) : Prop :=
  exists v, said k (JNum 0) j v /\ ((nothing v /\ z = 0%Z) \/ (~ nothing v /\ jint v = Ok z)).
Definition says_amount (j : json) (n : N) : Prop := exists c, cfrom_json j = Ok c /\ amount c n.
Definition says_stake (j : json) (n : N) : Prop :=
  ((j = JNull \/ j = JStr []) /\ n = 0) \/ exists s, j = JStr s /\ s <> [] /\ py_int s = Ok (Z.of_N n).
(** hexadecimal digits of nothing or so many bytes *)
Definition says_hex (size : nat) (j : json) (b : bytes) : Prop :=
  (j = JNull /\ b = []) \/ exists s, j = JStr s /\ unhex s = Ok b /\ (b = [] \/ length b = size).
(** the same, with 0x or 0X before them, or not *)
Definition without_0x (s t : pystr) : Prop :=
  s = 48 :: 120 :: t \/ s = 48 :: 88 :: t \/ (s = t /\ forall r, s <> 48 :: 120 :: r /\ s <> 48 :: 88 :: r).
Definition says_prefixed (size : nat) (j : json) (b : bytes) : Prop :=
  (j = JNull /\ b = []) \/ exists s t, j = JStr s /\ without_0x s t /\ unhex t = Ok b /\ (b = [] \/ length b = size).
(** base 64 *)
Definition says_base64 (j : json) (b : bytes) : Prop := ((j = JNull \/ j = JStr []) /\ b = []) \/ exists s, j = JStr s /\ s <> [] /\ b64dec s = Ok b.
Definition says_data (j : json) (b : bytes) : Prop :=
  exists v, said "arbitrarydata" JNull j v /\ ((nothing v /\ b = []) \/ (~ nothing v /\ says_base64 v b)).
Definition says_key (j : json) (p : pubkey) : Prop := pk_from_json j = Ok p.

Definition says_name (j : json) (s : pystr) : Prop :=
  ((j = JNull \/ j = JStr []) /\ s = []) \/ (j = JStr s /\ s <> [] /\ (length s <= 63)%nat /\ maybe_newline bot_name s).
Definition says_network (ip : pystr -> res bytes) (j : json) (a : naddr) : Prop :=
  ((j = JNull \/ j = JStr []) /\ a = mkna 0 []) \/
  exists s, j = JStr s /\ s <> [] /\
    ((maybe_newline host_name s /\ (length s <= 63)%nat /\ a = mkna 0 s) \/
     (~ maybe_newline host_name s /\ exists p, ip s = Ok p /\ a = na_packed p)).

(** inputs and outputs; [parent]: what stands for the output spent, which is not told *)
Definition says_input (parent : option output) (j : json) (i : input) : Prop :=
  exists p f h g, at_key "parentid" j p /\ says_hash p h /\ at_key "fulfillment" j f /\ says_ff f g /\ i = mkin h g parent.
Definition says_output H (value : json -> N -> Prop) (j : json) (o : output) : Prop :=
  exists v x n c, at_key "value" j v /\ value v n /\ at_key "condition" j x /\ says H x c /\ o = mkout n c [].
Definition coin_in := says_input None.
Definition stake_in := says_input (Some (mkout 0 CNil [])).
Definition coin_out H := says_output H says_amount.
Definition stake_out H := says_output H says_stake.

Definition says_standard H (j : json) (t : tx_std) : Prop :=
  s_legacy t = false /\ many "coininputs" coin_in j (s_cin t) /\ many "coinoutputs" (coin_out H) j (s_cout t) /\
  many "blockstakeinputs" stake_in j (s_bin t) /\ many "blockstakeoutputs" (stake_out H) j (s_bout t) /\ many "minerfees" says_amount j (s_fees t) /\ says_data j (s_data t).
(** both kinds of minting *)
Definition says_mint (j : json) (t : tx_mint) : Prop :=
  (exists v, said "nonce" (JStr []) j v /\ says_base64 v (m_nonce t)) /\ (exists v f, said "mintfulfillment" (JObj []) j v /\ says_ff v f /\ m_ff t = Some f) /\
  many "minerfees" says_amount j (m_fees t) /\ says_data j (m_data t) /\ m_parent t = None.
Definition says_definition H (j : json) (t : tx_mint) : Prop :=
  says_mint j t /\ exists v c, said "mintcondition" (JObj []) j v /\ says H v c /\ m_new t = MCond c.
Definition says_creation H (j : json) (t : tx_mint) : Prop := says_mint j t /\ exists os, many "coinoutputs" (coin_out H) j os /\ m_new t = MCoins os.
(** fee, inputs and refund *)
Definition says_funding H (j : json) (fee : option N) (ins : list input) (refund : option output) : Prop :=
  maybe "txfee" (some says_amount) None j fee /\ many "coininputs" coin_in j ins /\ maybe "refundcoinoutput" (some (coin_out H)) None j refund.
Definition says_conversion H (j : json) (t : tx_conv) : Prop :=
  maybe "address" (says_prefixed 20) [] j (c_addr t) /\ maybe "value" says_amount 0 j (c_value t) /\ says_funding H j (c_fee t) (c_cin t) (c_refund t).
Definition says_erc20_coins H (j : json) (t : tx_gen) : Prop :=
  maybe "address" (says_address H) (mkuh 0 []) j (g_addr t) /\ maybe "value" says_amount 0 j (g_value t) /\ maybe "txfee" (some says_amount) None j (g_fee t) /\
  maybe "blockid" (says_prefixed 32) [] j (g_block t) /\ maybe "txid" (says_prefixed 32) [] j (g_txid t).
Definition says_sig (j : json) (s : bool * bytes) : Prop := fst s = false /\ says_hex 64 j (snd s).
(** the registration fee, if told, is 10 TFT *)
Definition says_registration H (j : json) (t : tx_reg) : Prop :=
  maybe "pubkey" (some says_key) None j (r_pk t) /\ maybe "signature" (some says_sig) None j (r_sig t) /\
  (lacks "regfee" j \/ exists v, at_key "regfee" j v /\ says_amount v (10 * 10 ^ 9)) /\ exists ins, r_cin t = Some ins /\ says_funding H j (r_fee t) ins (r_refund t).
Definition says_identity (j : json) (i : option pubkey * bsig) : Prop :=
  ((j = JNull \/ j = JObj []) /\ i = (None, None)) \/
  exists k x p s, at_key "publickey" j k /\ says_key k p /\ at_key "signature" j x /\ says_hex 64 x s /\ i = (Some p, Some (true, s)).
Definition says_bot H ip (j : json) (t : tx_bot) : Prop :=
  many "addresses" (says_network ip) j (b_addrs t) /\ many "names" says_name j (b_names t) /\ says_number "nrofmonths" j (b_months t) /\
  says_funding H j (b_fee t) (b_cin t) (b_refund t) /\ maybe "identification" says_identity (None, None) j (b_pk t, b_sig t).
(** a signature, or an empty one if nothing is there *)
Definition says_signature (j : json) (s : bsig) : Prop :=
  exists v x, said "signature" JNull j v /\ s = Some (false, x) /\ ((nothing v /\ x = []) \/ (~ nothing v /\ says_hex 64 v x)).
(** what to add and what to remove *)
Definition says_changes {A} (k : string) (P : json -> A -> Prop) (j : json) (add del : list A) : Prop :=
  exists v w, said k (JObj []) j v /\ ((nothing v /\ w = JObj []) \/ (~ nothing v /\ w = v)) /\ many "add" P w add /\ many "remove" P w del.
Definition says_update H ip (j : json) (t : tx_upd) : Prop :=
  says_number "id" j (u_id t) /\ says_changes "addresses" (says_network ip) j (u_addr_add t) (u_addr_del t) /\ says_changes "names" says_name j (u_name_add t) (u_name_del t) /\
  says_number "nrofmonths" j (u_months t) /\ says_funding H j (u_fee t) (u_cin t) (u_refund t) /\ says_signature j (u_sig t) /\ u_parent t = None.
Definition says_party (j : json) (p : Z * bsig) : Prop := says_number "id" j (fst p) /\ says_signature j (snd p).
Definition says_transfer H (j : json) (t : tx_name) : Prop :=
  maybe "sender" says_party (0%Z, None) j (n_sender t, n_ssig t) /\ maybe "receiver" says_party (0%Z, None) j (n_receiver t, n_rsig t) /\
  many "names" says_name j (n_names t) /\ (exists ins, n_cin t = Some ins /\ says_funding H j (n_fee t) ins (n_refund t)) /\ n_spk t = None /\ n_rpk t = None.

(** the old format: a key and its signature unlock an address *)
Definition old_input (parent : option output) (j : json) (i : input) : Prop :=
  exists u p c k f s h pk sg, said "unlocker" (JObj []) j u /\ said "parentid" (JStr []) j p /\ said "condition" (JObj []) u c /\ said "publickey" JNull c k /\
    said "fulfillment" (JObj []) u f /\ said "signature" JNull f s /\
    says_hash p h /\ says_key k pk /\ says_hex 64 s sg /\ i = mkin h (FSingle pk (Some sg)) parent.
Definition old_output H (value : json -> N -> Prop) (j : json) (o : output) : Prop :=
  exists v a n u, said "value" (JStr (s2b "0")) j v /\ said "unlockhash" (JStr []) j a /\ value v n /\ says_address H a u /\ o = mkout n (CUnlockHash u) [].
Definition old_list {A} (k : string) (P : json -> A -> Prop) (j : json) (l : list A) : Prop := maybe k (elements P) [] j l.
Definition says_old H (j : json) (t : tx_std) : Prop :=
  s_legacy t = true /\ old_list "coininputs" (old_input None) j (s_cin t) /\ old_list "coinoutputs" (old_output H says_amount) j (s_cout t) /\
  old_list "blockstakeinputs" (old_input (Some (mkout 0 CNil []))) j (s_bin t) /\ old_list "blockstakeoutputs" (old_output H says_stake) j (s_bout t) /\
  old_list "minerfees" says_amount j (s_fees t) /\ ((lacks "arbitrarydata" j /\ s_data t = []) \/ (~ lacks "arbitrarydata" j /\ says_data j (s_data t))).

(** the version: a number (Python's False and True are 0 and 1) *)
Definition says_version (j : json) (v : Z) : Prop :=
  exists x, at_key "version" j x /\ (x = JNum v \/ x = JVersion v \/ (x = JBool false /\ v = 0%Z) \/ (x = JBool true /\ v = 1%Z)).
Definition says_content H ip (v : Z) (d : json) (t : txn) : Prop :=
  match t with
  | T1 t => v = 1%Z /\ says_standard H d t
  | TMint t => (v = 128%Z /\ says_definition H d t) \/ (v = 129%Z /\ says_creation H d t)
  | T208 t => v = 208%Z /\ says_conversion H d t
  | T209 t => v = 209%Z /\ says_erc20_coins H d t
  | T210 t => v = 210%Z /\ says_registration H d t
  | T144 t => v = 144%Z /\ says_bot H ip d t
  | T145 t => v = 145%Z /\ says_update H ip d t
  | T146 t => v = 146%Z /\ says_transfer H d t
  end.
Definition says_txn H ip (j : json) (t : txn) : Prop :=
  (exists d s, says_version j 0 /\ at_key "data" j d /\ t = T1 s /\ says_old H d s) \/
  (exists v d, v <> 0%Z /\ says_version j v /\ said "data" (JObj []) j d /\ says_content H ip v d t).
