(** Concrete deployments for the examples and refutations (no code of /repo is modelled here). *)

From Verif Require Export RoundLoader.
Open Scope Z_scope.

(** Derived addresses and hashes from tables; every other seed list has no derived address, every
    other byte string hashes to the zero key. *)
Fixpoint pda_lookup (t : list (bytes * key * key)) (sd : bytes) (pid : key) : option key :=
  match t with
  | [] => None
  | (sd', pid', k) :: r => if beqb sd sd' && keqb pid pid' then Some k else pda_lookup r sd pid
  end.
Fixpoint hash_lookup (t : list (bytes * key)) (b : bytes) : key :=
  match t with
  | [] => key0
  | (b', k) :: r => if beqb b b' then k else hash_lookup r b
  end.
Definition demo_env (t : list (bytes * key * key)) (h : list (bytes * key)) : env :=
  Env (pda_lookup t) (hash_lookup h) (fun n => 1000 + 7 * n) (fun k => kb k).

Fixpoint acct_lookup (l : list (key * acct)) (k : key) : acct :=
  match l with
  | [] => acct0
  | (k', a) :: r => if keqb k k' then a else acct_lookup r k
  end.
Definition demo_state (l : list (key * acct)) : state := St (acct_lookup l) [] 1700000000.

Definition unres (r : res state) : state :=
  match r with Ok s => s | Err _ => demo_state [] end.
Definition is_ok {A} (r : res A) : bool := match r with Ok _ => true | Err _ => false end.
Lemma ok_unres r : is_ok r = true -> r = Ok (unres r).
Proof. destruct r; [reflexivity|discriminate]. Qed.

(** Account list entries: writable signer, writable, readonly. *)
Definition sw k := Meta k true true.
Definition ww k := Meta k false true.
Definition ro k := Meta k false false.

(** Program-data account naming [a] as upgrade authority. *)
Definition demo_programdata (a : key) : acct :=
  Acct 1 loader_id (enc (c_u32 ** c_u64 ** c_option c_key) (3, (5, Some a))).

(** One round-loader instruction. *)
Definition do_rl (e : env) (ms : list meta) (i : rl_ix) (s : state) : res state :=
  run (ctx_of rl_id ms) (rl_process e (ctx_of rl_id ms) (enc c_rl_ix i)) s.

(** Decides [genesis] for these states. *)
Definition demo_genesisb (t : list (bytes * key * key)) (pid : key) (l : list (key * acct)) : bool :=
  negb (keqb pid sys_id)
  && forallb (fun '(_, a) => (0 <=? lam a) && negb (keqb (own a) pid)) l
  && forallb (fun '(_, p, k) => negb (keqb p pid) ||
       (keqb (own (acct_lookup l k)) sys_id && (blen (dat (acct_lookup l k)) =? 0))) t.
