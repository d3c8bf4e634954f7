(** What the text of a balance says (C88). *)
From Verif Require Import Base Types Conditions Txn Dates Wallet Spec_Types Spec_Texts Spec_Wire Spec_Wallet Spec_Show.
From Coq Require Import Permutation.

(** A whole number, perhaps with a minus sign *)
Definition int_shown (s : pystr) (z : Z) : Prop := ((0 <= z)%Z /\ whole_shown s (Z.to_N z)) \/ ((z < 0)%Z /\ exists t, whole_shown t (Z.to_N (- z)) /\ s = s2b "-" ++ t).

(** The outputs [l] are worth [a] that can be spent and [b] that are locked at this height and time; without a height and time nothing counts as locked. *)
Definition divided (h t : Z) (l : list output) (a b : N) : Prop :=
  exists free kept, Permutation (free ++ kept) l /\ a = worth free /\ b = worth kept /\
    ((0 < h /\ 0 < t)%Z -> Forall (open_at h t) free /\ Forall (fun o => ~ open_at h t o) kept) /\
    (~ (0 < h /\ 0 < t)%Z -> kept = []).
(** What a balance says: available, locked, unconfirmed available, unconfirmed locked, and spent in unconfirmed transactions *)
Record figures := mkfig { f_available : N; f_locked : N; f_unconfirmed : N; f_unconfirmed_locked : N; f_deduction : N }.
Definition holds (h t : Z) (b : bal) (f : figures) : Prop :=
  divided h t (values (w_outs b)) (f_available f) (f_locked f) /\
  divided h t (values (w_unc b)) (f_unconfirmed f) (f_unconfirmed_locked f) /\ f_deduction f = worth (values (w_uncspent b)).
(** The confirmed amounts; the unconfirmed ones unless both are nothing; the deduction unless it is nothing *)
Definition figures_shown (f : figures) (s : pystr) : Prop :=
  exists a l u d, s = a ++ s2b " available and " ++ l ++ s2b " locked" ++ u ++ d /\ tft_shown a (f_available f) /\ tft_shown l (f_locked f) /\
    ((f_unconfirmed f = 0 /\ f_unconfirmed_locked f = 0 /\ u = []) \/
     ((0 < f_unconfirmed f \/ 0 < f_unconfirmed_locked f) /\ exists a' l', tft_shown a' (f_unconfirmed f) /\ tft_shown l' (f_unconfirmed_locked f) /\
        u = [10] ++ s2b "Unconfirmed: " ++ a' ++ s2b " available " ++ l' ++ s2b " locked")) /\
    ((f_deduction f = 0 /\ d = []) \/ (0 < f_deduction f /\ exists a', tft_shown a' (f_deduction f) /\ d = [10] ++ s2b "Unconfirmed Balance Deduction: -" ++ a')).
(** The height and time, if known *)
Definition context_shown (local : Z -> tm) (h t : Z) (s : pystr) : Prop :=
  ((0 < h /\ 0 < t)%Z /\ exists n d, whole_shown n (Z.to_N h) /\ date_shown d (local t) /\ s = s2b "wallet balance on height " ++ n ++ s2b " at " ++ d) \/
  (~ (0 < h /\ 0 < t)%Z /\ s = s2b "wallet balance at an unknown time").
Definition balance_shown (local : Z -> tm) (b : bal) (s : pystr) : Prop :=
  exists c x f, context_shown local (w_height b) (w_time b) c /\ holds (w_height b) (w_time b) b f /\ figures_shown f x /\ s = c ++ [10] ++ x.

(** Texts one after the other with a text between them *)
Inductive joined (sep : pystr) : list pystr -> pystr -> Prop :=
| joined_none : joined sep [] []
| joined_one s : joined sep [s] s
| joined_more s t l r : joined sep (t :: l) r -> joined sep (s :: t :: l) (s ++ sep ++ r).
Section Hash.
Variable H : bytes -> bytes.
(** The address of a multi-signature wallet: that of its owners and number of signatures *)
Definition ms_address (owners : list uh) (n : Z) (u : uh) : Prop := paid_to H (fun v s => uh_str H v = Ok s) (CMulti owners n) u.
(** A multi-signature wallet: number of signatures and owners, address, owners, figures *)
Definition ms_shown (m : msbal) (s : pystr) : Prop :=
  exists n k u a ts os f x, int_shown n (ms_count m) /\ whole_shown k (N.of_nat (length (ms_owners m))) /\ ms_address (ms_owners m) (ms_count m) u /\ printed H u a /\
    Forall2 (printed H) (ms_owners m) ts /\ joined (s2b ", ") ts os /\ holds (w_height (ms_bal m)) (w_time (ms_bal m)) (ms_bal m) f /\ figures_shown f x /\
    s = s2b "MultiSignature (" ++ n ++ s2b "-of-" ++ k ++ s2b ") Wallet " ++ a ++ s2b ":" ++ [10] ++ s2b "Owners: " ++ os ++ [10] ++ x.
(** The wallets shown: those with an output that is not spent, confirmed or not *)
Definition in_use (m : msbal) : Prop := w_outs (ms_bal m) <> [] \/ w_unc (ms_bal m) <> [].
Inductive used : list msbal -> list msbal -> Prop :=
| used_end : used [] []
| used_yes m l r : in_use m -> used l r -> used (m :: l) (m :: r)
| used_no m l r : ~ in_use m -> used l r -> used (m :: l) r.
Definition wallets_shown (local : Z -> tm) (w : wbal) (s : pystr) : Prop :=
  exists x ms ts, balance_shown local (wb_own w) x /\ used (wb_ms w) ms /\ Forall2 ms_shown ms ts /\ s = x ++ concat (map (fun t => [10; 10] ++ t) ts).
End Hash.
