(** Which transactions fit into their encoding: numbers within their width, lengths within what a length can tell. *)
From Verif Require Import Base Types Conditions Fulfillments ThreeBotTypes Txn Spec_Ops Spec_Sign.

Definition u64 (z : Z) : Prop := (0 <= z < 2 ^ 64)%Z.
Definition u32 (z : Z) : Prop := (0 <= z < 2 ^ 32)%Z.
Definition small_uh (u : uh) : Prop := (0 <= uh_type u < 256)%Z /\ (length (uh_hash u) <= 32)%nat.
Definition small_key (k : pubkey) : Prop := (length (pk_hash k) <= 32)%nat.
(** a list of at most a million *)
Definition few {A} (l : list A) : Prop := N.of_nat (length l) <= 1000000.
Fixpoint fits_cond (c : cond) : Prop :=
  match c with
  | CNil => True
  | CUnlockHash u => small_uh u
  | CSwap s r h l => small_uh s /\ small_uh r /\ (forall x, h = Some x -> (length x <= 32)%nat) /\ u64 l
  | CLock l i => u64 l /\ match i with CLock _ _ => False | _ => fits_cond i end
  | CMulti us n => Forall small_uh us /\ few us /\ u64 n
  end.
(** an amount that can be written in 1000 digits *)
Definition modest (n : N) : Prop := n < 10 ^ 1000.
Definition fits_out (o : output) : Prop := modest (o_value o) /\ fits_cond (o_cond o).
Definition fits_refund (o : option output) : Prop := forall x, o = Some x -> fits_out x.
Definition fits (t : txn) : Prop :=
  match t with
  | T1 t => s_legacy t = false /\ few (s_cin t) /\ few (s_bin t) /\ few (s_cout t) /\ few (s_bout t) /\ Forall fits_out (s_cout t) /\ Forall fits_out (s_bout t) /\
            few (s_fees t) /\ Forall modest (s_fees t) /\ few (s_data t)
  | TMint m => match m_new m with MCond c => fits_cond c | MCoins os => few os /\ Forall fits_out os end /\ few (m_fees m) /\ Forall modest (m_fees m) /\ few (m_data m)
  | T208 c => modest (c_value c) /\ few (c_cin c) /\ modest (fee (c_fee c)) /\ fits_refund (c_refund c)
  | T209 g => small_uh (g_addr g) /\ modest (g_value g) /\ modest (fee (g_fee g))
  | T210 r => small_key (opk (r_pk r)) /\ (exists l, r_cin r = Some l /\ few l) /\ modest (fee (r_fee r)) /\ fits_refund (r_refund r)
  | T144 b => limits (T144 b) /\ lists_ok (T144 b) /\ few (b_cin b) /\ modest (fee (b_fee b)) /\ fits_refund (b_refund b) /\ small_key (opk (b_pk b))
  | T145 u => limits (T145 u) /\ lists_ok (T145 u) /\ u32 (u_id u) /\ few (u_cin u) /\ modest (fee (u_fee u)) /\ fits_refund (u_refund u)
  | T146 n => limits (T146 n) /\ lists_ok (T146 n) /\ u32 (n_sender n) /\ u32 (n_receiver n) /\ (exists l, n_cin n = Some l /\ few l) /\ modest (fee (n_fee n)) /\ fits_refund (n_refund n)
  end.
(** the things hashed beside the transaction *)
Definition fits_extra (x : extra) : Prop :=
  match x with XInt z => u64 z | XKey k => small_key k | XSecret _ | XBytes _ => True end.
