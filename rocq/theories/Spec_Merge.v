(** What it means to add one balance to another. *)
From Verif Require Import Base Types Txn Wallet Merging Spec_Wallet.

(** no id twice in any of the four lists *)
Definition listed_once (b : bal) : Prop := NoDup (map fst (w_outs b)) /\ NoDup (map fst (w_spent b)) /\ NoDup (map fst (w_unc b)) /\ NoDup (map fst (w_uncspent b)).
(** the list [c] has everything of [b], and everything of [a] under other ids *)
Definition overlay (a b c : odict) : Prop := forall id o, In (id, o) c <-> In (id, o) b \/ (In (id, o) a /\ ~ has b id).
(** [c] is [a] with [b] laid over it *)
Definition merged (a b c : bal) : Prop :=
  overlay (w_outs a) (w_outs b) (w_outs c) /\ overlay (w_spent a) (w_spent b) (w_spent c) /\ overlay (w_unc a) (w_unc b) (w_unc c) /\
  overlay (w_uncspent a) (w_uncspent b) (w_uncspent c) /\ (forall x, In x (w_addrs c) <-> In x (w_addrs a) \/ In x (w_addrs b)) /\
  w_height c = Z.max (w_height a) (w_height b) /\ w_time c = Z.max (w_time a) (w_time b).
(** what is listed in both is the same *)
Definition agree_on (a b : odict) : Prop := forall id o o', In (id, o) a -> In (id, o') b -> o = o'.
Definition no_conflict (a b : bal) : Prop :=
  agree_on (w_outs a) (w_outs b) /\ agree_on (w_spent a) (w_spent b) /\ agree_on (w_unc a) (w_unc b) /\ agree_on (w_uncspent a) (w_uncspent b).
Definition same_lists (c d : bal) : Prop :=
  (forall x, In x (w_outs c) <-> In x (w_outs d)) /\ (forall x, In x (w_spent c) <-> In x (w_spent d)) /\ (forall x, In x (w_unc c) <-> In x (w_unc d)) /\
  (forall x, In x (w_uncspent c) <-> In x (w_uncspent d)) /\ (forall x, In x (w_addrs c) <-> In x (w_addrs d)) /\
  w_height c = w_height d /\ w_time c = w_time d.

(** the personal part of a balance and its multi-signature wallets *)
Definition own_part (w : anybal) : bal := match w with BPlain b => b | BMulti _ => bal_new | BWallets w => wb_own w end.
Definition multi_part (w : anybal) : list msbal := match w with BPlain _ => [] | BMulti m => [m] | BWallets w => wb_ms w end.
