(** Histories: any sequence of successful instructions of one program, interleaved with whatever
    other programs and the runtime do between (or, through CPI, around) them.

    Models the runtime rules that protect a program's accounts from everybody else (Solana runtime
    1.16: account ownership, program derived signers, removal of accounts without lamports). *)

From Verif Require Export RuntimeLaws.
Open Scope Z_scope.

(** [k] is an address derived from some seeds for program [pid]. *)
Definition is_pda (e : env) (pid k : key) : Prop := exists sd, e_pda e sd pid = Some k.

(** What one step of anything but [pid] can do, seen from [pid]: it does not touch data or owner of
    [pid]'s accounts nor debits them, it can make an account [pid]'s only with zeroed data, and it
    cannot use an unused address derived for [pid] since only [pid] signs for it.  Log records and
    the clock are not restricted. *)
Definition foreign (e : env) (pid : key) (s s' : state) : Prop := forall k,
  (0 <= lam (accs s k) -> 0 <= lam (accs s' k)) /\
  (own (accs s k) = pid -> same_od s s' k /\ lam (accs s k) <= lam (accs s' k)) /\
  (own (accs s k) <> pid -> own (accs s' k) = pid -> all0 (dat (accs s' k)) = true) /\
  (is_pda e pid k -> own (accs s k) = sys_id -> same_od s s' k).

(** At the end of a transaction accounts without lamports cease to exist. *)
Definition purge (s s' : state) : Prop := forall k,
  accs s' k = accs s k \/ (lam (accs s k) = 0 /\ accs s' k = acct0).

(** Histories of the instructions [prog] of program [pid]. *)
Inductive hist (e : env) (pid : key) (prog : state -> state -> Prop) : state -> state -> Prop :=
| h_refl s : hist e pid prog s s
| h_prog s s1 s2 : hist e pid prog s s1 -> prog s1 s2 -> hist e pid prog s s2
| h_foreign s s1 s2 : hist e pid prog s s1 -> foreign e pid s1 s2 -> hist e pid prog s s2
| h_purge s s1 s2 : hist e pid prog s s1 -> purge s1 s2 -> hist e pid prog s s2.

(** Before the program's first instruction: it owns nothing and the addresses derived for it are
    unused. *)
Definition genesis (e : env) (pid : key) (s : state) : Prop := forall k,
  0 <= lam (accs s k) /\ own (accs s k) <> pid /\
  (is_pda e pid k -> own (accs s k) = sys_id /\ dat (accs s k) = []).

Lemma hist_trans e pid prog a b c : hist e pid prog a b -> hist e pid prog b c -> hist e pid prog a c.
Proof.
  intros H1 H2. revert H1. induction H2 as [|s s1 s2 _ IH Hp|s s1 s2 _ IH Hp|s s1 s2 _ IH Hp]; intros H1.
  - exact H1.
  - apply (h_prog _ _ _ _ s1); auto.
  - apply (h_foreign _ _ _ _ s1); auto.
  - apply (h_purge _ _ _ _ s1); auto.
Qed.
Lemma hist_weaken e pid (p q : state -> state -> Prop) a b :
  (forall s s', p s s' -> q s s') -> hist e pid p a b -> hist e pid q a b.
Proof.
  intros W H. induction H; [apply h_refl|eapply h_prog|eapply h_foreign|eapply h_purge]; eauto.
Qed.

(** Invariants hold throughout a history. *)
Lemma hist_inv e pid (prog : state -> state -> Prop) (I : state -> Prop) :
  (forall s s', I s -> prog s s' -> I s') ->
  (forall s s', I s -> foreign e pid s s' -> I s') ->
  (forall s s', I s -> purge s s' -> I s') ->
  forall s s', hist e pid prog s s' -> I s -> I s'.
Proof. intros A B C s s' H. induction H; eauto. Qed.
