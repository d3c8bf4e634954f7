(** Vocabulary for the client's lookups (C64-C70): what an answer tells, field by field.  Further fields may be there.
    It uses the data types of the model and the way single values are printed, and none of the code reading answers. *)
From Verif Require Import Base Currency Primitive Types Conditions Fulfillments ThreeBotTypes Txn TxnJson Spec_Types Spec_Txn Spec_Json Wallet Explorer Spec_Explorer Spec_ThreeBot Lookups.

(** the value under a key of a JSON object *)
Definition field (k : string) (j : json) (v : json) : Prop := exists l, j = JObj l /\ jfind k l = Some v.
Definition absent (k : string) (j : json) : Prop := exists l, j = JObj l /\ jfind k l = None.
(** a list under a key; where it is empty it may also be absent or null *)
Definition list_field (k : string) (j : json) (l : list json) : Prop :=
  field k j (JArr l) \/ l = [] /\ (absent k j \/ field k j JNull).

(** ** Transactions *)
(** the printed form of a transaction as an explorer sends it: the version is a number *)
Definition raw_form H ip_str (t : txn) (j : json) : Prop :=
  exists d, data_json H ip_str t = Ok d /\ field "version" j (JNum (version t)) /\ (field "data" j d \/ jtruthy d = false /\ absent "data" j).
Definition told_output H (j : json) (o : output) : Prop := out_json H o = Ok j.
Definition told_id (j : json) (h : bytes) : Prop := j = JStr (hash_str h).
(** an answer tells about a transaction [t]: its id, the outputs it spends, the ids of the outputs it makes, and its height *)
Record told_txn H ip_str (e : json) (t : txn) (id : bytes) (parents stake_parents : list output) (ids stake_ids : list bytes) (height : option Z) : Prop := {
  tt_raw : exists raw, field "rawtransaction" e raw /\ raw_form H ip_str t raw;
  tt_id : field "id" e (JStr (hash_str id));
  tt_parents : exists l, list_field "coininputoutputs" e l /\ Forall2 (told_output H) l parents;
  tt_ids : exists l, list_field "coinoutputids" e l /\ Forall2 told_id l ids;
  tt_stake_parents : exists l, list_field "blockstakeinputoutputs" e l /\ Forall2 (told_output H) l stake_parents;
  tt_stake_ids : exists l, list_field "blockstakeoutputids" e l /\ Forall2 told_id l stake_ids;
  tt_height : match height with
              | None => field "unconfirmed" e (JBool true)
              | Some h => (field "unconfirmed" e (JBool false) \/ absent "unconfirmed" e) /\ field "height" e (JNum h)
              end }.
(** what is told makes sense *)
Record sensible ip_parse (t : txn) (id : bytes) (parents stake_parents : list output) (ids stake_ids : list bytes) (height : option Z) : Prop := {
  se_txn : printable ip_parse t;
  se_id : hash32 id;
  se_parents : Forall print_out parents /\ length parents = length (inputs_of t);
  se_ids : Forall hash32 ids /\ length ids = length (coin_outputs t);
  se_stake_parents : Forall (fun o => network_cond (o_cond o)) stake_parents /\ length stake_parents = length (blockstake_inputs t);
  se_stake_ids : Forall hash32 stake_ids /\ length stake_ids = length (blockstake_outputs t);
  se_height : forall h, height = Some h -> (0 <= h)%Z }.
(** the result: inputs with the outputs they spend, outputs with their ids *)
Definition give_parents (l : list input) (ps : list output) : list input :=
  map (fun x => mkin (i_parent (fst x)) (i_ff (fst x)) (Some (mkout (o_value (snd x)) (o_cond (snd x)) (i_parent (fst x))))) (combine l ps).
Definition give_ids (l : list output) (ids : list bytes) : list output := map (fun x => mkout (o_value (fst x)) (o_cond (fst x)) (snd x)) (combine l ids).
(** [x] is the transaction [t] as told: [read_back] (Spec_Json.v) is what printing and reading keeps *)
Record as_told (x : etx) (t : txn) (id : bytes) (parents stake_parents : list output) (ids stake_ids : list bytes) (height : option Z) : Prop := {
  at_txn : read_back (e_txn x) = read_back t;
  at_id : e_id x = id;
  at_inputs : inputs_of (e_txn x) = give_parents (inputs_of (read_back t)) parents;
  at_outputs : (forall g, t <> T209 g) -> coin_outputs (e_txn x) = give_ids (coin_outputs t) ids;
  at_stake_inputs : blockstake_inputs (e_txn x) = give_parents (blockstake_inputs (read_back t)) stake_parents;
  at_stake_outputs : blockstake_outputs (e_txn x) = give_ids (blockstake_outputs t) stake_ids;
  at_height : match height with None => e_unconfirmed x = true | Some h => e_unconfirmed x = false /\ e_height x = h end }.

(** ** Blocks *)
Definition told_payout H (idj j : json) (p : payout) : Prop :=
  told_id idj (p_id p) /\ field "value" j (JStr (dec_str (p_value p))) /\ exists s, uh_str H (p_uh p) = Ok s /\ field "unlockhash" j (JStr s).
Definition payout_ok (p : payout) : Prop := hash32 (p_id p) /\ print_amount (p_value p) /\ address (p_uh p).
Section Block.
Variable H : bytes -> bytes.
(** [tx]: what each reported transaction stands for *)
Variable tx : json -> etx -> Prop.
Record told_block (r : json) (b : block) : Prop := {
  tb_txns : exists l, field "transactions" r (JArr l) /\ Forall2 tx l (k_txns b);
  tb_raw : exists raw, field "rawblock" r raw /\ field "parentid" raw (JStr (hash_str (k_parent b))) /\ field "timestamp" raw (JNum (k_btime b)) /\
    exists ids ps, list_field "minerpayoutids" r ids /\ list_field "minerpayouts" raw ps /\
      length ids = length (k_payouts b) /\ length ps = length (k_payouts b) /\
      forall n i p x, nth_error ids n = Some i -> nth_error ps n = Some p -> nth_error (k_payouts b) n = Some x -> told_payout H i p x;
  tb_height : field "height" r (JNum (k_bheight b));
  tb_id : field "blockid" r (JStr (hash_str (k_bid b))) }.
End Block.
Definition block_ok (b : block) : Prop := hash32 (k_bid b) /\ hash32 (k_parent b) /\ Forall payout_ok (k_payouts b).

(** ** Records *)
Section Record.
Variables (ip_parse : pystr -> res bytes) (ip_str : bytes -> pystr).
Record told_record (r : json) (x : record) : Prop := {
  tr_id : field "id" r (JNum (r_id x));
  tr_names : list_field "names" r (map JStr (r_names x));
  tr_addrs : list_field "addresses" r (map (fun a => JStr (na_str ip_str a)) (r_addrs x));
  tr_key : field "publickey" r (JStr (pk_str (r_key x)));
  tr_expires : field "expiration" r (JNum (r_expires x)) }.
Definition record_ok (x : record) : Prop :=
  Forall accepted_name (r_names x) /\ Forall (accepted_address ip_parse) (r_addrs x) /\ hash32 (pk_hash (r_key x)).
End Record.

(** a text read as a public key: none, or the kind of key, a colon and hexadecimal digits *)
Definition key_text (s : pystr) : Prop :=
  s = [] \/ exists k t b, s = pkspec_str k ++ 58 :: t /\ Forall (fun c => c <> 58) t /\ unhex t = Ok b /\ (b = [] \/ length b = 32%nat).
(** which endpoint a 3Bot is looked up at (C67) *)
Inductive bot_asks : botref -> pystr -> Prop :=
| BA_int z : bot_asks (RInt z) (s2b "/explorer/3bot/" ++ z_str z)
| BA_bool b : bot_asks (RBool b) (s2b "/explorer/3bot/" ++ if b then s2b "True" else s2b "False")
| BA_name s : bot_asks (RName s) (s2b "/explorer/whois/3bot/" ++ s)
| BA_key p : bot_asks (RKey p) (s2b "/explorer/3bot/" ++ pk_str p)
| BA_str_name s : maybe_newline bot_name s -> bot_asks (RStr s) (s2b "/explorer/whois/3bot/" ++ s)
| BA_str_key s : key_text s -> bot_asks (RStr s) (s2b "/explorer/3bot/" ++ s).
(** ... and a mint condition (C68) *)
Inductive mint_asks : heightref -> pystr -> Prop :=
| MA_latest : mint_asks HNone (s2b "/explorer/mintcondition")
| MA_int z : mint_asks (HInt z) (s2b "/explorer/mintcondition/" ++ z_str z)
| MA_str s z : py_int s = Ok z -> mint_asks (HStr s) (s2b "/explorer/mintcondition/" ++ z_str z).
(** an answer about an address which is registered for ERC20 (C69) *)
Definition told_erc20 H (resp : json) (u : uh) (a : bytes) (confirmations : Z) : Prop :=
  field "hashtype" resp (JStr (s2b "unlockhash")) /\ exists i s, field "erc20info" resp i /\ uh_str H u = Ok s /\ field "tftaddress" i (JStr s) /\
    field "erc20address" i (prefixed_json a) /\ field "confirmations" i (JNum confirmations).
(** an answer about an address (C48): its transactions, the multi-signature wallets it co-owns, its ERC20 registration *)
Record told_history {X : Type} H (tx : json -> X -> Prop) (resp : json) (xs : list X) (ms : list uh) (erc20 : option (uh * bytes * Z)) : Prop := {
  th_type : field "hashtype" resp (JStr (s2b "unlockhash"));
  th_txns : exists l, field "transactions" resp (JArr l) /\ Forall2 tx l xs;
  th_multis : exists l, list_field "multisigaddresses" resp l /\ Forall2 (fun j u => exists s, j = JStr s /\ uh_str H u = Ok s) l ms;
  th_erc20 : match erc20 with None => absent "erc20info" resp | Some (u, a, c) => told_erc20 H resp u a c end }.
Definition history_ok (ms : list uh) (erc20 : option (uh * bytes * Z)) : Prop :=
  Forall (fun u => address u /\ uh_type u = 3%Z) ms /\
  match erc20 with None => True | Some (u, a, _) => address u /\ length a = 20%nat /\ wf_bytes a end.
