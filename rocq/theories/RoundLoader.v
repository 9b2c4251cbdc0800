(** round-loader/src/processor.rs, function by function.

    [e] is the environment, [c] the instruction's context ([c_pid c] is [program_id]).  Account keys
    are taken from the front of the account list in the order of the [next_account_info] calls; a list
    that is too short fails before the other checks (only the error value can differ from Rust, where
    a sysvar check may come before the last [next_account_info]). *)

From Verif Require Export Helper.

Definition NotEnough {A} : M A := fail NotEnoughAccountKeys.

(** [T::unpack] of the program's own records *)
Definition rl_settings_at := unpack_at c_rl_settings RL_SETTINGS_LEN rs_init.
Definition relay_round_at := unpack_at c_relay_round RELAY_ROUND_LEN rr_init.
Definition rl_proposal_at := unpack_at c_rl_proposal RL_PROPOSAL_LEN (@p_init _ _).

(** The block "Validate Settings Account" (e.g. processor.rs:211-224, 287-300): unpack, account kind,
    address and nonce.  Returns the settings and the program-data nonce. *)
Definition rl_valid_settings (e : env) (c : ctx) (k : key) : M (rl_settings * Z) :=
  st <- rl_settings_at k ;;
  '(n, pn) <- lift (into_settings (rs_kind st)) ;;
  lift (validate_pda e (c_pid c) sd_settings n k) ;;;
  ret (st, pn).

(** The block "Validate Proposal Account" (processor.rs:502-525, 597-620, 687-711) after unpacking:
    the address must be derived from the stored round, event ids and the hash of the event. *)
Definition rl_valid_proposal (e : env) (c : ctx) (k : key) (p : rl_proposal) : M key :=
  '(n, _) <- lift (into_proposal (p_kind p)) ;;
  lift (validate_pda e (c_pid c)
    (sd_proposal (p_round p) (pd_ts (p_pda p)) (pd_lt (p_pda p)) (pd_conf (p_pda p))
       (e_hash e (enc c_rl_event (wl_data (p_event p))))) n k).

(** The block "Validate Relay Round Account" (processor.rs:531-545, 622-636). *)
Definition rl_valid_round (e : env) (c : ctx) (k : key) : M relay_round :=
  rr <- relay_round_at k ;;
  n <- lift (into_relay_round (rr_kind rr)) ;;
  lift (validate_pda e (c_pid c) (sd_relay_round (rr_number rr)) n k) ;;;
  ret rr.

(** round-loader/src/processor.rs:118-190 *)
Definition rl_initialize (e : env) (c : ctx) (genesis : Z) (submitter : key) (min_votes ttl : Z)
  : M unit :=
  match c_keys c with
  | funder :: initializer :: settings :: programdata :: _system :: rent :: _ =>
    check_rent rent ;;;
    guard (c_sg c initializer) MissingRequiredSignature ;;;
    '(pd, pn) <- lift (find_pda e (sd_programdata (c_pid c)) loader_id) ;;
    guard (keqb pd programdata) InvalidArgument ;;;
    d <- data programdata ;;
    lift (validate_initializer d initializer) ;;;
    '(sk, sn) <- lift (find_pda e sd_settings (c_pid c)) ;;
    guard (keqb sk settings) InvalidArgument ;;;
    invoke_create e c funder settings (Z.max 1 (rent_min e RL_SETTINGS_LEN)) RL_SETTINGS_LEN
      (c_pid c) (with_bump sd_settings sn) ;;;
    pack_at c c_rl_settings RL_SETTINGS_LEN settings
      (RlSettings true (KSettings sn pn) genesis submitter min_votes ttl)
  | _ => NotEnough
  end.

Definition opt_or {A} (o : option A) (x : A) : A := match o with Some a => a | None => x end.

(** round-loader/src/processor.rs:192-261 *)
Definition rl_update_settings (e : env) (c : ctx) (current : option Z) (submitter : option key)
  (min_votes ttl : option Z) : M unit :=
  match c_keys c with
  | author :: settings :: programdata :: _ =>
    guard (c_sg c author) MissingRequiredSignature ;;;
    '(st, pn) <- rl_valid_settings e c settings ;;
    a <- get settings ;;
    guard (keqb (own a) (c_pid c)) InvalidArgument ;;;
    lift (validate_programdata e (c_pid c) pn programdata) ;;;
    d <- data programdata ;;
    lift (validate_initializer d author) ;;;
    pack_at c c_rl_settings RL_SETTINGS_LEN settings
      (RlSettings (rs_init st) (rs_kind st) (opt_or current (rs_current st))
         (opt_or submitter (rs_submitter st)) (opt_or min_votes (rs_min_votes st))
         (opt_or ttl (rs_ttl st)))
  | _ => NotEnough
  end.

Definition rs_with_current (st : rl_settings) (n : Z) : rl_settings :=
  RlSettings (rs_init st) (rs_kind st) n (rs_submitter st) (rs_min_votes st) (rs_ttl st).

(** Creation of a relay-round account and update of the current round, the common tail of
    process_create_relay_round (processor.rs:313-357), process_execute_proposal (724-775) and
    process_execute_proposal_by_admin (827-877).  [round_end + round_ttl] wraps (u32). *)
Definition rl_new_round (e : env) (c : ctx) (funder settings relay_round : key) (st : rl_settings)
  (round : Z) (relays : list key) (round_end : Z) : M unit :=
  '(rk, rn) <- lift (find_pda e (sd_relay_round round) (c_pid c)) ;;
  guard (keqb rk relay_round) InvalidArgument ;;;
  invoke_create e c funder relay_round (Z.max 1 (rent_min e RELAY_ROUND_LEN)) RELAY_ROUND_LEN
    (c_pid c) (with_bump (sd_relay_round round) rn) ;;;
  pack_at c c_relay_round RELAY_ROUND_LEN relay_round
    (RelayRound true (KRelayRound rn) round (wrap32 (round_end + rs_ttl st)) relays) ;;;
  pack_at c c_rl_settings RL_SETTINGS_LEN settings (rs_with_current st round).

(** round-loader/src/processor.rs:263-360 *)
Definition rl_create_relay_round (e : env) (c : ctx) (round : Z) (relays : list key)
  (round_end : Z) : M unit :=
  match c_keys c with
  | funder :: creator :: settings :: relay_round :: _system :: rent :: _ =>
    check_rent rent ;;;
    guard (c_sg c creator) MissingRequiredSignature ;;;
    '(st, _) <- rl_valid_settings e c settings ;;
    guard (keqb (rs_submitter st) creator) IllegalOwner ;;;
    guard (negb (negb (rs_current st =? 0) && (round <? rs_current st))) (Custom 3) ;;;
    rl_new_round e c funder settings relay_round st round relays round_end
  | _ => NotEnough
  end.

(** round-loader/src/processor.rs:362-448 *)
Definition rl_create_proposal (e : env) (c : ctx) (round ts lt : Z) (conf event_hash : key)
  : M unit :=
  match c_keys c with
  | funder :: creator :: proposal :: _system :: rent :: _ =>
    check_rent rent ;;;
    guard (c_sg c creator) MissingRequiredSignature ;;;
    '(pk, pn) <- lift (find_pda e (sd_proposal round ts lt conf event_hash) (c_pid c)) ;;
    guard (keqb pk proposal) InvalidArgument ;;;
    a <- get proposal ;;
    if lam a =? 0 then
      invoke_create e c funder proposal (Z.max 1 (rent_min e RL_PROPOSAL_LEN)) RL_PROPOSAL_LEN
        (c_pid c) (with_bump (sd_proposal round ts lt conf event_hash) pn) ;;;
      pack_at c c_rl_proposal RL_PROPOSAL_LEN proposal
        (Prop_ false (KProposal pn None) creator round 0 (Pda ts lt conf)
           (WithLen 0 (RlEvent 0 [] 0)) (WithLen 1 PNew) [])
    else ret tt
  | _ => NotEnough
  end.

(** round-loader/src/processor.rs:889-905; [data[offset..offset + len]] panics if the account is too
    short. *)
Definition write_proposal_data (d : bytes) (offset : Z) (b : bytes) : res bytes :=
  let o := LOAD_DATA_BEGIN + offset in
  if LOAD_DATA_END <? o + blen b then Err AccountDataTooSmall
  else if blen d <? o + blen b then Err Panic
  else Ok (firstn (Z.to_nat o) d ++ b ++ skipn (Z.to_nat (o + blen b)) d).

(** round-loader/src/processor.rs:450-476 *)
Definition rl_write_proposal (c : ctx) (offset : Z) (b : bytes) : M unit :=
  match c_keys c with
  | proposal :: _ =>
    d <- data proposal ;;
    guard (match unpack_unchecked c_rl_proposal RL_PROPOSAL_LEN d with
           | Ok p => negb (p_init p)
           | Err _ => true end) AccountAlreadyInitialized ;;;
    d' <- lift (write_proposal_data d offset b) ;;
    set_data c proposal d'
  | _ => NotEnough
  end.

(** [relays.len() * 2 / 3 + 1] as u32 (processor.rs:547; token-proxy/src/processor.rs request
    handlers use the same formula) *)
Definition two_thirds (n : Z) : Z := wrap32 (n * 2 / 3 + 1).

(** round-loader/src/processor.rs:478-573 *)
Definition rl_finalize (e : env) (c : ctx) : M unit :=
  match c_keys c with
  | funder :: proposal :: settings :: relay_round :: _system :: _ =>
    '(st, _) <- rl_valid_settings e c settings ;;
    d <- data proposal ;;
    p <- lift (unpack_unchecked c_rl_proposal RL_PROPOSAL_LEN d) ;;
    pk <- rl_valid_proposal e c proposal p ;;
    guard (negb (p_init p)) AccountAlreadyInitialized ;;;
    rr <- rl_valid_round e c relay_round ;;
    pack_at c c_rl_proposal RL_PROPOSAL_LEN proposal
      (Prop_ true (p_kind p) (p_author p) (rr_number rr)
         (Z.max (two_thirds (blen (rr_relays rr))) (rs_min_votes st))
         (p_pda p) (p_event p) (WithLen 1 PNew)
         (repeat VNone (length (rr_relays rr)))) ;;;
    invoke_transfer c funder pk (wrap64 (RELAY_REPARATION * blen (rr_relays rr)))
  | _ => NotEnough
  end.

Definition p_with_signers {E M} (p : prop E M) (l : list vote) : prop E M :=
  Prop_ (p_init p) (p_kind p) (p_author p) (p_round p) (p_required p) (p_pda p) (p_event p)
    (p_meta p) l.
Definition p_with_meta {E M} (p : prop E M) (m : M) : prop E M :=
  Prop_ (p_init p) (p_kind p) (p_author p) (p_round p) (p_required p) (p_pda p) (p_event p)
    m (p_signers p).

(** round-loader/src/processor.rs:575-660; [signers[index]] panics when out of range;
    [pack_into_slice] does not check the length. *)
Definition rl_vote (e : env) (c : ctx) (v : vote) : M unit :=
  match c_keys c with
  | voter :: proposal :: relay_round :: _ =>
    guard (c_sg c voter) MissingRequiredSignature ;;;
    guard (negb (vote_eqb v VNone)) (Custom 13) ;;;
    p <- rl_proposal_at proposal ;;
    rl_valid_proposal e c proposal p ;;;
    rr <- rl_valid_round e c relay_round ;;
    i <- lift (ok_or (position voter (rr_relays rr)) (Custom 4)) ;;
    old <- lift (ok_or (nth_error (p_signers p) i) Panic) ;;
    if vote_eqb old VNone then
      d <- data proposal ;;
      d' <- lift (pack_into_slice c_rl_proposal (p_with_signers p (set_nth i v (p_signers p))) d) ;;
      set_data c proposal d' ;;;
      move_lam c proposal voter RELAY_REPARATION
    else ret tt
  | _ => NotEnough
  end.

(** round-loader/src/processor.rs:662-786 *)
Definition rl_execute (e : env) (c : ctx) : M unit :=
  match c_keys c with
  | funder :: settings :: proposal :: relay_round :: _system :: rent :: _ =>
    check_rent rent ;;;
    '(st, _) <- rl_valid_settings e c settings ;;
    p <- rl_proposal_at proposal ;;
    rl_valid_proposal e c proposal p ;;;
    if pstatus_eqb (wl_data (p_meta p)) PNew && (p_required p <=? wrap32 (confirms (p_signers p)))
    then
      rl_new_round e c funder settings relay_round st (re_round (wl_data (p_event p)))
        (re_relays (wl_data (p_event p))) (re_end (wl_data (p_event p))) ;;;
      pack_at c c_rl_proposal RL_PROPOSAL_LEN proposal
        (p_with_meta p (WithLen (wl_len (p_meta p)) PExecuted))
    else
      pack_at c c_rl_proposal RL_PROPOSAL_LEN proposal p
  | _ => NotEnough
  end.

(** round-loader/src/processor.rs:788-886 *)
Definition rl_execute_by_admin (e : env) (c : ctx) : M unit :=
  match c_keys c with
  | funder :: creator :: settings :: proposal :: relay_round :: _system :: rent :: _ =>
    check_rent rent ;;;
    guard (c_sg c creator) MissingRequiredSignature ;;;
    '(st, _) <- rl_valid_settings e c settings ;;
    guard (keqb (rs_submitter st) creator) IllegalOwner ;;;
    p <- rl_proposal_at proposal ;;
    rl_new_round e c funder settings relay_round st (re_round (wl_data (p_event p)))
      (re_relays (wl_data (p_event p))) (re_end (wl_data (p_event p))) ;;;
    pack_at c c_rl_proposal RL_PROPOSAL_LEN proposal
      (p_with_meta p (WithLen (wl_len (p_meta p)) PExecuted))
  | _ => NotEnough
  end.

(** round-loader/src/processor.rs:21-116: dispatch on a decoded instruction *)
Definition rl_exec (e : env) (c : ctx) (i : rl_ix) : M unit :=
  match i with
  | RlVote v => rl_vote e c v
  | RlInitialize a b m t => rl_initialize e c a b m t
  | RlUpdateSettings a b m t => rl_update_settings e c a b m t
  | RlCreateRelayRound n l t => rl_create_relay_round e c n l t
  | RlCreateProposal a b l d h => rl_create_proposal e c a b l d h
  | RlWriteProposal o b => rl_write_proposal c o b
  | RlFinalize => rl_finalize e c
  | RlExecute => rl_execute e c
  | RlExecuteByAdmin => rl_execute_by_admin e c
  end.

(** round-loader/src/processor.rs:21-26: [try_from_slice(instruction_data)?] then dispatch *)
Definition rl_process (e : env) (c : ctx) (d : bytes) : M unit :=
  i <- lift (ok_or (try_from_slice c_rl_ix d) BorshIo) ;; rl_exec e c i.
