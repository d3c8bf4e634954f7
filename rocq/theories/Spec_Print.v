(** The JSON document of conditions, fulfilments and transactions (C89), field by field, independent of the writers. *)
From Verif Require Import Base Types Conditions Fulfillments ThreeBotTypes Txn Spec_Texts Spec_Show Spec_Wire.

(** ** Documents *)
Definition form := json -> Prop.
(** what has no document *)
Definition nothing : form := fun _ => False.
Definition a_text (P : pystr -> Prop) : form := fun j => exists s, j = JStr s /\ P s.
Definition a_number (z : Z) : form := fun j => j = JNum z.
Definition a_list {A} (P : A -> form) (l : list A) : form := fun j => exists js, j = JArr js /\ Forall2 P l js.
(** these fields in this order, and no others *)
Definition an_object (fs : list (string * form)) : form := fun j =>
  exists l, j = JObj l /\ Forall2 (fun (f : string * form) (e : string * json) => fst f = fst e /\ snd f (snd e)) fs l.
(** a field that is left out when there is nothing to say *)
Definition unless_empty {A} (l : list A) (f : string * form) : list (string * form) := match l with [] => [] | _ :: _ => [f] end.
Definition if_some {A} (name : string) (P : A -> form) (o : option A) : list (string * form) :=
  match o with None => [] | Some x => [(name, P x)] end.

(** ** Texts *)
(** three bytes are four letters of six bits; one or two bytes at the end are two or three letters, filled up with = *)
Inductive in_base64 : bytes -> pystr -> Prop :=
| base64_end : in_base64 [] []
| base64_one x a b : letter a (x / 4) -> letter b (x mod 4 * 16) -> in_base64 [x] [a; b; 61; 61]
| base64_two x y a b c : letter a (x / 4) -> letter b (x mod 4 * 16 + y / 16) -> letter c (y mod 16 * 4) -> in_base64 [x; y] [a; b; c; 61]
| base64_three x y z a b c d r t :
    letter a (x / 4) -> letter b (x mod 4 * 16 + y / 16) -> letter c (y mod 16 * 4 + z / 64) -> letter d (z mod 64) ->
    in_base64 r t -> in_base64 (x :: y :: z :: r) (a :: b :: c :: d :: t).
Definition base64 (b : bytes) : form := a_text (in_base64 b).
(** amounts are texts: the number of smallest units *)
Definition units (n : N) : form := a_text (fun s => whole_shown s n).
Definition hexadecimal (b : bytes) : form := a_text (fun s => lower_text s b).
Definition hexadecimal0x (b : bytes) : form := a_text (fun s => exists t, s = s2b "0x" ++ t /\ lower_text t b).
(** an id; none is 64 zeros *)
Definition id_form (b : bytes) : form := a_text (fun s => id_shown s b).
(** a key: its kind, a colon and its bytes; none is 64 zeros *)
Definition key_form (p : pubkey) : form := a_text (fun s => exists k i, s = k ++ s2b ":" ++ i /\ kind_name k (pk_spec p) /\ id_shown i (pk_hash p)).
Definition name_form (s : pystr) : form := a_text (fun t => t = s).

Section Print.
Variable H : bytes -> bytes.
(** the text of an IP address *)
Variable ip_str : bytes -> pystr.
Definition address_form (u : uh) : form := a_text (printed H u).
Definition network_form (a : naddr) : form := a_text (fun s => s = if na_type a =? 0 then na_bytes a else ip_str (na_bytes a)).

(** ** Conditions and fulfilments *)
Fixpoint condition_form (k : cond) : form :=
  match k with
  | CNil => an_object [("type"%string, a_number 0)]
  | CUnlockHash u => an_object [("type"%string, a_number 1); ("data"%string, an_object [("unlockhash"%string, address_form u)])]
  | CSwap sender receiver hash lock =>
      an_object [("type"%string, a_number 2);
        ("data"%string, an_object [("sender"%string, address_form sender); ("receiver"%string, address_form receiver);
           ("hashedsecret"%string, hexadecimal (or_empty hash)); ("timelock"%string, a_number lock)])]
  | CLock lock inner =>
      an_object [("type"%string, a_number 3);
        ("data"%string, an_object [("locktime"%string, a_number lock); ("condition"%string, condition_form inner)])]
  | CMulti owners required =>
      an_object [("type"%string, a_number 4);
        ("data"%string, an_object [("minimumsignaturecount"%string, a_number required); ("unlockhashes"%string, a_list address_form owners)])]
  end.
Definition pair_fields (p : pubkey) (s : bytes) : list (string * form) := [("publickey"%string, key_form p); ("signature"%string, hexadecimal s)].
Definition fulfilment_form (f : ff) : form :=
  match f with
  | FSingle p s => an_object [("type"%string, a_number 1); ("data"%string, an_object (pair_fields p (or_empty s)))]
  | FSwap p s secret =>
      an_object [("type"%string, a_number 2); ("data"%string, an_object (pair_fields p (or_empty s) ++ if_some "secret" hexadecimal secret))]
  | FMulti ps =>
      an_object [("type"%string, a_number 3);
        ("data"%string, an_object [("pairs"%string, a_list (fun p => an_object (pair_fields (fst p) (snd p))) ps)])]
  end.
Definition input_form (i : input) : form := an_object [("parentid"%string, id_form (i_parent i)); ("fulfillment"%string, fulfilment_form (i_ff i))].
Definition output_form (o : output) : form := an_object [("value"%string, units (o_value o)); ("condition"%string, condition_form (o_cond o))].

(** ** Transactions *)
Definition inputs_field (l : list input) : string * form := ("coininputs"%string, a_list input_form l).
Definition refund_field (o : option output) : list (string * form) := if_some "refundcoinoutput" output_form o.
Definition signature_bytes (s : bsig) : bytes := match s with Some (_, b) => b | None => [] end.
(** what a record update adds and removes *)
Definition changes_fields {A} (name : string) (P : A -> form) (add remove : list A) : list (string * form) :=
  unless_empty (add ++ remove)
    (name, an_object (unless_empty add ("add"%string, a_list P add) ++ unless_empty remove ("remove"%string, a_list P remove))).
(** the ERC20 address of an address: the last 20 bytes of the hash of its bytes *)
Definition erc20_form (u : uh) : form := fun j => exists d, Spec_Wire.address u d /\ hexadecimal0x (skipn 12 (H d)) j.

Definition std_fields (t : tx_std) : list (string * form) :=
  unless_empty (s_cin t) (inputs_field (s_cin t)) ++
  unless_empty (s_cout t) ("coinoutputs"%string, a_list output_form (s_cout t)) ++
  unless_empty (s_bin t) ("blockstakeinputs"%string, a_list input_form (s_bin t)) ++
  unless_empty (s_bout t) ("blockstakeoutputs"%string, a_list output_form (s_bout t)) ++
  unless_empty (s_fees t) ("minerfees"%string, a_list units (s_fees t)) ++
  unless_empty (s_data t) ("arbitrarydata"%string, base64 (s_data t)).
Definition mint_form (t : tx_mint) : form :=
  an_object [("nonce"%string, base64 (m_nonce t));
    ("mintfulfillment"%string, fulfilment_form (match m_ff t with Some f => f | None => FSingle (mkpk PKNil []) None end));
    match m_new t with MCond k => ("mintcondition"%string, condition_form k) | MCoins os => ("coinoutputs"%string, a_list output_form os) end;
    ("minerfees"%string, a_list units (m_fees t)); ("arbitrarydata"%string, base64 (m_data t))].
Definition data_form (t : txn) : form :=
  match t with
  | T1 t => an_object (std_fields t)
  | TMint t => mint_form t
  | T208 t =>
      an_object ([("address"%string, hexadecimal0x (c_addr t)); ("value"%string, units (c_value t)); inputs_field (c_cin t);
        ("txfee"%string, units (worth_of (c_fee t)))] ++ refund_field (c_refund t))
  | T209 t =>
      an_object [("address"%string, address_form (g_addr t)); ("value"%string, units (g_value t)); ("txfee"%string, units (worth_of (g_fee t)));
        ("blockid"%string, hexadecimal0x (g_block t)); ("txid"%string, hexadecimal0x (g_txid t))]
  | T210 t => fun j => exists u cin, key_address H (key_of (r_pk t)) u /\ r_cin t = Some cin /\
      an_object ([("pubkey"%string, key_form (key_of (r_pk t))); ("tftaddress"%string, address_form u); ("erc20address"%string, erc20_form u);
        ("signature"%string, hexadecimal (signature_bytes (r_sig t))); ("regfee"%string, units registration); ("txfee"%string, units (worth_of (r_fee t)));
        inputs_field cin] ++ refund_field (r_refund t)) j
  | T144 t => fun j => exists p s, b_pk t = Some p /\ b_sig t = Some s /\
      an_object ([("nrofmonths"%string, a_number (b_months t)); ("txfee"%string, units (worth_of (b_fee t))); inputs_field (b_cin t);
        ("identification"%string, an_object (pair_fields p (snd s)))] ++
        unless_empty (b_addrs t) ("addresses"%string, a_list network_form (b_addrs t)) ++
        unless_empty (b_names t) ("names"%string, a_list name_form (b_names t)) ++ refund_field (b_refund t)) j
  | T145 t =>
      an_object ([("id"%string, a_number (u_id t)); ("nrofmonths"%string, a_number (u_months t)); ("txfee"%string, units (worth_of (u_fee t)));
        inputs_field (u_cin t); ("signature"%string, hexadecimal (signature_bytes (u_sig t)))] ++
        changes_fields "addresses" network_form (u_addr_add t) (u_addr_del t) ++
        changes_fields "names" name_form (u_name_add t) (u_name_del t) ++ refund_field (u_refund t))
  | T146 t => fun j => exists cin, n_cin t = Some cin /\
      an_object ([("sender"%string, an_object [("id"%string, a_number (n_sender t)); ("signature"%string, hexadecimal (signature_bytes (n_ssig t)))]);
        ("receiver"%string, an_object [("id"%string, a_number (n_receiver t)); ("signature"%string, hexadecimal (signature_bytes (n_rsig t)))]);
        ("names"%string, a_list name_form (n_names t)); ("txfee"%string, units (worth_of (n_fee t))); inputs_field cin] ++ refund_field (n_refund t)) j
  end.
(** an empty standard transaction has no data at all *)
Definition has_data (t : txn) : Prop := match t with T1 t => std_fields t <> [] | _ => True end.
Definition txn_form (t : txn) : form := fun j =>
  (has_data t /\ an_object [("version"%string, fun v => v = JVersion (number_of t)); ("data"%string, data_form t)] j) \/
  (~ has_data t /\ an_object [("version"%string, fun v => v = JVersion (number_of t))] j).
End Print.

(** ** Objects whose bytes are bytes *)
Definition bytes_of_cond (k : cond) : list bytes :=
  let fix go (k : cond) :=
    match k with
    | CNil => []
    | CUnlockHash u => [uh_hash u]
    | CSwap s r h _ => [uh_hash s; uh_hash r; or_empty h]
    | CLock _ k => go k
    | CMulti us _ => map uh_hash us
    end in go k.
Definition bytes_of_ff (f : ff) : list bytes :=
  match f with
  | FSingle p s => [pk_hash p; or_empty s]
  | FSwap p s se => [pk_hash p; or_empty s; or_empty se]
  | FMulti ps => flat_map (fun p => [pk_hash (fst p); snd p]) ps
  end.
Definition bytes_of_inputs (l : list input) : list bytes := flat_map (fun i => i_parent i :: bytes_of_ff (i_ff i)) l.
Definition bytes_of_outputs (l : list output) : list bytes := flat_map (fun o => bytes_of_cond (o_cond o)) l.
Definition bytes_of_option {A} (f : A -> list bytes) (o : option A) : list bytes := match o with None => [] | Some x => f x end.
Definition bytes_of_sig (s : bsig) : list bytes := [signature_bytes s].
Definition bytes_of (t : txn) : list bytes :=
  match t with
  | T1 t => bytes_of_inputs (s_cin t) ++ bytes_of_outputs (s_cout t) ++ bytes_of_inputs (s_bin t) ++ bytes_of_outputs (s_bout t) ++ [s_data t]
  | TMint t => bytes_of_option bytes_of_ff (m_ff t) ++ match m_new t with MCond k => bytes_of_cond k | MCoins os => bytes_of_outputs os end ++ [m_data t; m_nonce t]
  | T208 t => c_addr t :: bytes_of_inputs (c_cin t) ++ bytes_of_option (fun o => bytes_of_outputs [o]) (c_refund t)
  | T209 t => [uh_hash (g_addr t); g_block t; g_txid t]
  | T210 t => pk_hash (key_of (r_pk t)) :: bytes_of_sig (r_sig t) ++ bytes_of_option bytes_of_inputs (r_cin t) ++ bytes_of_option (fun o => bytes_of_outputs [o]) (r_refund t)
  | T144 t => pk_hash (key_of (b_pk t)) :: bytes_of_sig (b_sig t) ++ bytes_of_inputs (b_cin t) ++ bytes_of_option (fun o => bytes_of_outputs [o]) (b_refund t)
  | T145 t => bytes_of_sig (u_sig t) ++ bytes_of_inputs (u_cin t) ++ bytes_of_option (fun o => bytes_of_outputs [o]) (u_refund t)
  | T146 t => bytes_of_sig (n_ssig t) ++ bytes_of_sig (n_rsig t) ++ bytes_of_option bytes_of_inputs (n_cin t) ++ bytes_of_option (fun o => bytes_of_outputs [o]) (n_refund t)
  end.
