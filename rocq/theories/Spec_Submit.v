(** Specification vocabulary for what operations submit (C74). *)
From Verif Require Import Base Primitive Types Conditions Fulfillments ThreeBotTypes Txn Wallet Spec_Wallet Spec_Explorer.

(** a transaction without the ids noted in its coin outputs; the ids are no part of its encoding *)
Definition anon (o : output) : output := mkout (o_value o) (o_cond o) [].
Definition anonymous (t : txn) : txn :=
  match t with
  | T1 s => T1 (mkstd (s_legacy s) (s_cin s) (map anon (s_cout s)) (s_bin s) (s_bout s) (s_fees s) (s_data s))
  | TMint m => TMint (mkmint (m_ff m) (match m_new m with MCond c => MCond c | MCoins l => MCoins (map anon l) end) (m_fees m) (m_data m) (m_nonce m) (m_parent m))
  | T208 t => T208 (mkconv (c_addr t) (c_value t) (c_fee t) (c_cin t) (option_map anon (c_refund t)))
  | T209 t => T209 t
  | T210 t => T210 (mkreg (r_pk t) (r_sig t) (r_fee t) (r_cin t) (option_map anon (r_refund t)))
  | T144 t => T144 (mkbot (b_addrs t) (b_names t) (b_months t) (b_fee t) (b_cin t) (option_map anon (b_refund t)) (b_pk t) (b_sig t))
  | T145 t => T145 (mkupd (u_id t) (u_addr_add t) (u_addr_del t) (u_name_add t) (u_name_del t) (u_months t) (u_fee t) (u_cin t) (option_map anon (u_refund t)) (u_sig t) (u_parent t))
  | T146 t => T146 (mkname (n_sender t) (n_receiver t) (n_names t) (n_fee t) (n_cin t) (option_map anon (n_refund t)) (n_ssig t) (n_rsig t) (n_spk t) (n_rpk t))
  end.

Section Hash.
Variable H : bytes -> bytes.
(** the output pays to one of the addresses *)
Definition pays_any (addrs : list pystr) (o : output) : Prop := exists a, In a addrs /\ pays H a o = true.
(** the output has an address, of which the text is [s] *)
Definition address_of (o : output) (s : pystr) : Prop := exists u, cond_unlockhash H (o_cond o) = Ok u /\ uh_str H u = Ok s.
Definition addressed (o : output) : Prop := exists s, address_of o s.
(** the output can be tracked: it has an address, and one paying to a multi-signature address tells the owners itself (it is not just
    the text of such an address), with a number of signatures that the owners can give *)
Definition trackable (o : output) : Prop :=
  exists u s, cond_unlockhash H (o_cond o) = Ok u /\ uh_str H u = Ok s /\
    (uh_type u = 3%Z -> exists us n, o_cond o = CMulti us n /\ (1 <= n <= Z.of_nat (length us))%Z).
(** the outputs a transaction spends and creates *)
Definition touched (t : txn) : list output := spent_by t ++ coin_outputs t.
End Hash.
