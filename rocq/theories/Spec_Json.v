(** Vocabulary for the JSON form of transactions (C28, C29, C52, C54, C58). *)
From Verif Require Import Base Primitive Types Conditions Fulfillments ThreeBotTypes Txn Spec_Types Spec_Fulfil Spec_Txn.

(** ** What a transaction looks like after being printed and parsed *)
(** An absent key prints as 64 zeros; an absent signature prints like an empty one, which counts as a signature. *)
Definition read_key (p : pubkey) : pubkey := match pk_hash p with [] => mkpk (pk_spec p) (zeros 32) | _ => p end.
Definition read_ff (f : ff) : ff :=
  match f with
  | FSingle p s => FSingle (read_key p) (Some (odef s))
  | FSwap p s se => FSwap (read_key p) (Some (odef s)) se
  | FMulti ps => FMulti (map (fun q => (read_key (fst q), snd q)) ps)
  end.
(** Outputs spent and output ids are not part of the JSON. *)
Definition read_cin (i : input) : input := mkin (i_parent i) (read_ff (i_ff i)) None.
Definition read_bin (i : input) : input := mkin (i_parent i) (read_ff (i_ff i)) (Some (mkout 0 CNil [])).
Definition read_out (o : output) : output := mkout (o_value o) (o_cond o) [].
(** An absent fee prints as 0; a signature comes back marked to be encoded with a length. *)
Definition read_fee (f : option N) : option N := Some (fee f).
Definition read_sig (s : bsig) : bsig := Some (false, sig_bytes s).
Definition read_back (t : txn) : txn :=
  match t with
  | T1 t => T1 (mkstd false (map read_cin (s_cin t)) (map read_out (s_cout t)) (map read_bin (s_bin t))
                  (map read_out (s_bout t)) (s_fees t) (s_data t))
  | TMint t => TMint (mkmint (Some (read_ff (match m_ff t with Some f => f | None => FSingle pk_default None end)))
                  (match m_new t with MCond c => MCond c | MCoins os => MCoins (map read_out os) end)
                  (m_fees t) (m_data t) (m_nonce t) None)
  | T208 t => T208 (mkconv (c_addr t) (c_value t) (read_fee (c_fee t)) (map read_cin (c_cin t)) (option_map read_out (c_refund t)))
  | T209 t => T209 (mkgen (g_addr t) (g_value t) (read_fee (g_fee t)) (g_block t) (g_txid t))
  | T210 t => T210 (mkreg (Some (opk (r_pk t))) (read_sig (r_sig t)) (read_fee (r_fee t))
                  (Some (map read_cin (olist (r_cin t)))) (option_map read_out (r_refund t)))
  | T144 t => T144 (mkbot (b_addrs t) (b_names t) (b_months t) (read_fee (b_fee t)) (map read_cin (b_cin t))
                  (option_map read_out (b_refund t)) (b_pk t) (Some (true, sig_bytes (b_sig t))))
  | T145 t => T145 (mkupd (u_id t) (u_addr_add t) (u_addr_del t) (u_name_add t) (u_name_del t) (u_months t) (read_fee (u_fee t))
                  (map read_cin (u_cin t)) (option_map read_out (u_refund t)) (read_sig (u_sig t)) None)
  | T146 t => T146 (mkname (n_sender t) (n_receiver t) (n_names t) (read_fee (n_fee t)) (Some (map read_cin (olist (n_cin t))))
                  (option_map read_out (n_refund t)) (read_sig (n_ssig t)) (read_sig (n_rsig t)) None None)
  end.

(** ** Transactions whose parts have their normal sizes, in any signing state *)
Definition key_or_none (p : pubkey) : Prop := key32 p \/ pk_hash p = [].
Definition sig_or_empty (s : bytes) : Prop := sig64 s \/ s = [].
Definition print_ff (f : ff) : Prop :=
  match f with
  | FSingle p s => key_or_none p /\ sig_or_empty (odef s)
  | FSwap p s se => key_or_none p /\ sig_or_empty (odef s) /\ (forall x, se = Some x -> hash32 x)
  | FMulti ps => Forall (fun q => key_or_none (fst q) /\ sig_or_empty (snd q)) ps
  end.
Definition print_in (i : input) : Prop := hash32 (i_parent i) /\ print_ff (i_ff i).
(** amounts of up to 28 digits: below 10^19 TFT *)
Definition print_amount (n : N) : Prop := n < 10 ^ 28.
Definition print_out (o : output) : Prop := print_amount (o_value o) /\ network_cond (o_cond o).
Definition print_refund (o : option output) : Prop := forall x, o = Some x -> print_out x.
Definition print_sig (s : bsig) : Prop := sig_or_empty (sig_bytes s).
Section IP.
Variable ip_parse : pystr -> res bytes.
(** names and addresses the library accepts *)
Definition accepted_address (a : naddr) : Prop := exists v, na_new ip_parse v = Ok a.
Definition accepted_name (s : pystr) : Prop := exists v, bn_new v = Ok s.
Definition printable (t : txn) : Prop :=
  match t with
  | T1 t => Forall print_in (s_cin t) /\ Forall print_out (s_cout t) /\ Forall print_in (s_bin t) /\
            Forall (fun o => network_cond (o_cond o)) (s_bout t) /\ Forall print_amount (s_fees t) /\ wf_bytes (s_data t)
  | TMint t => wf_bytes (m_nonce t) /\ (forall f, m_ff t = Some f -> print_ff f) /\
               match m_new t with MCond c => network_cond c | MCoins os => Forall print_out os end /\
               Forall print_amount (m_fees t) /\ wf_bytes (m_data t)
  | T208 t => (length (c_addr t) = 20%nat /\ wf_bytes (c_addr t)) /\ print_amount (c_value t) /\ print_amount (fee (c_fee t)) /\
              Forall print_in (c_cin t) /\ print_refund (c_refund t)
  | T209 t => address (g_addr t) /\ print_amount (g_value t) /\ print_amount (fee (g_fee t)) /\ hash32 (g_block t) /\ hash32 (g_txid t)
  | T210 t => key32 (opk (r_pk t)) /\ print_sig (r_sig t) /\ print_amount (fee (r_fee t)) /\ r_cin t <> None /\
              Forall print_in (olist (r_cin t)) /\ print_refund (r_refund t)
  | T144 t => Forall accepted_address (b_addrs t) /\ Forall accepted_name (b_names t) /\ print_amount (fee (b_fee t)) /\
              Forall print_in (b_cin t) /\ print_refund (b_refund t) /\ key32 (opk (b_pk t)) /\
              (exists a s, b_sig t = Some (a, s) /\ sig_or_empty s)
  | T145 t => Forall accepted_address (u_addr_add t) /\ Forall accepted_address (u_addr_del t) /\
              Forall accepted_name (u_name_add t) /\ Forall accepted_name (u_name_del t) /\
              print_amount (fee (u_fee t)) /\ Forall print_in (u_cin t) /\ print_refund (u_refund t) /\ print_sig (u_sig t)
  | T146 t => Forall accepted_name (n_names t) /\ print_amount (fee (n_fee t)) /\ n_cin t <> None /\
              Forall print_in (olist (n_cin t)) /\ print_refund (n_refund t) /\ print_sig (n_ssig t) /\ print_sig (n_rsig t)
  end.
End IP.

(** Every input (and mint fulfilment) is signed; a 3Bot registration carries its signature. *)
Definition signed_in (i : input) : Prop := signed_ff (i_ff i).
Definition all_signed (t : txn) : Prop :=
  match t with
  | T1 t => Forall signed_in (s_cin t) /\ Forall signed_in (s_bin t)
  | TMint t => exists f, m_ff t = Some f /\ signed_ff f
  | T208 t => Forall signed_in (c_cin t)
  | T209 _ => True
  | T210 t => Forall signed_in (olist (r_cin t)) /\ array64 (r_sig t)
  | T144 t => Forall signed_in (b_cin t) /\ array64 (b_sig t)
  | T145 t => Forall signed_in (u_cin t) /\ array64 (u_sig t)
  | T146 t => Forall signed_in (olist (n_cin t)) /\ array64 (n_ssig t) /\ array64 (n_rsig t)
  end.
(** The versions that keep signatures of their own which JSON does not restore. *)
Definition loses_signature (t : txn) : bool := match t with T145 _ | T146 _ | T210 _ => true | _ => false end.

(** The version numbers of transactions. *)
Definition known_versions : list Z := [0; 1; 128; 129; 144; 145; 146; 208; 209; 210]%Z.
