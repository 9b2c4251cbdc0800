(** A concrete deployment of the token proxy for the examples and refutations (no code of /repo is
    modelled here). *)

From Coq Require Import Strings.String.
From Verif Require Export DemoLaws TpOk.
Open Scope Z_scope.
Open Scope list_scope.

(** A record in a zero-padded account of [n] bytes. *)
Definition pad {A} (cd : codec A) (n : nat) (x : A) : bytes :=
  enc cd x ++ repeat x00 (n - length (enc cd x)).
(** Token accounts and mints of the SPL token program. *)
Definition demo_token (mint owner : key) (amount : Z) : acct :=
  Acct 3000000 spl_id (enc c_tacc (TAcc mint owner amount (false, key0) TInit (false, 0) 0 (false, key0))).
Definition demo_mint (auth : key) (supply decimals : Z) : acct :=
  Acct 3000000 spl_id (enc c_tmint (TMint (true, auth) supply decimals true (false, key0))).

(** No program is reachable from payloads. *)
Definition no_ext : extern := fun _ _ => fail CpiDenied.

(** One token-proxy instruction. *)
Definition do_tp (e : env) (ext : extern) (ms : list meta) (i : tp_ix) (s : state) : res state :=
  run (ctx_of tp_id ms) (tp_process e ext (ctx_of tp_id ms) (enc c_tp_ix i)) s.

(** ** Who is who *)
Definition tfunder := knum 1.        (* pays rents *)
Definition tauth := knum 10.         (* upgrade authority *)
Definition tguard := knum 12.        (* guardian *)
Definition tman := knum 13.          (* manager *)
Definition twman := knum 14.         (* withdrawal manager *)
Definition tuser := knum 15.         (* depositor *)
Definition trecv := knum 16.         (* recipient of withdrawals *)
Definition tstranger := knum 17.     (* anybody *)
Definition trelay1 := knum 21. Definition trelay2 := knum 22. Definition trelay3 := knum 23.

(** Token accounts of the Solana token [tmintS]. *)
Definition tmintS := knum 40.
Definition tuserS := knum 41.
Definition trecvS := knum 42.
Definition tstrS := knum 43.
(** A worthless token made by the stranger. *)
Definition tfakeM := knum 45.
Definition tfakeA := knum 46.        (* the stranger's tokens *)
Definition tfakeV := knum 47.        (* another token account of the stranger *)

(** Another Solana token [tmintT]. *)
Definition tmintT := knum 48.
Definition tuserT := knum 49.

(** The Everscale token. *)
Definition tever : ever := AddrStd 0 (knum 70).
Definition teverX : ever := AddrStd 0 (knum 71).   (* an Everscale wallet *)

(** Derived addresses. *)
Definition trls := knum 100. Definition tround := knum 110. Definition tround2 := knum 111.
Definition tset := knum 200. Definition tmv := knum 201. Definition tpd := knum 202.
Definition ttsS := knum 210. Definition tvault := knum 211.
Definition ttsE := knum 212. Definition tmintE := knum 213. Definition trecvE := knum 214.
Definition tuserE := knum 217.
Definition tproxyS := knum 215. Definition tproxyE := knum 216.
Definition tw1 := knum 220. Definition tw2 := knum 221. Definition tw3 := knum 222. Definition tw4 := knum 223.
Definition tw5 := knum 224. Definition tw1b := knum 225. Definition tw6 := knum 226. Definition tw7 := knum 227.
Definition td1 := knum 230. Definition td2 := knum 231. Definition td3 := knum 232.
Definition td4 := knum 233.
Definition ttsT := knum 218. Definition tvaultT := knum 219.
Definition tw8 := knum 228. Definition tw9 := knum 229. Definition tw10 := knum 239.
Definition ttsX := knum 240. Definition tmintX := knum 241. Definition trecvX := knum 242.
Definition tround4 := knum 112. Definition trelay4 := knum 24.   (* a round of four relays *)
Definition tw11 := knum 243. Definition tw12 := knum 244. Definition tw13 := knum 245.
Definition tuserN := knum 250. Definition ttsN := knum 251. Definition tvaultN := knum 252. Definition td5 := knum 234.
Definition tevil := knum 600. Definition tforged := knum 601.    (* somebody's program and its account *)
Definition tw14 := knum 246. Definition tw15 := knum 247. Definition tw16 := knum 248.
(** A round of ten relays; a Solana token whose mint address begins with a zero byte. *)
Definition tround10 := knum 113.
Definition trelay5 := knum 25. Definition trelay6 := knum 26. Definition trelay7 := knum 27. Definition trelay8 := knum 28.
Definition trelay9 := knum 29. Definition trelay10 := knum 30.
Definition tmintZ := knum 10240. Definition tuserZ := knum 51.
Definition ttsZ := knum 253. Definition tvaultZ := knum 254. Definition tproxyZ := knum 255. Definition td6 := knum 235.
Definition tmintP := knum 258. Definition tproxyP := knum 259.
Definition tconf := knum 9.

(** Executions. *)
Definition texecS (w dst mint : key) : list meta * tp_ix :=
  ([ww w; ww tvault; ww dst; ww ttsS; ro mint; ro tset; ro spl_id; ro clock_id], TpWithdrawSol).
Definition texecE (w dst : key) (extra : list meta) : list meta * tp_ix :=
  ([ww w; ww tmintE; ww dst; ww ttsE; ro tset; ro sys_id; ro spl_id; ro rent_id; ro clock_id] ++ extra, TpWithdrawEver).
Definition texecZ : list meta * tp_ix :=
  ([ww tw15; ww tvaultZ; ww tproxyZ; ww ttsZ; ro tmintZ; ro tset; ro spl_id; ro clock_id], TpWithdrawSol).

(** Events: a Solana token withdrawal, a large one, one with payload, one above 2^64; an Ever token
    withdrawal, one with payload and one above 2^64; one of an Ever token with 95 decimals; half of 2^64
    Solana tokens. *)
Definition tev1 : wsol_event := WSolEvent tmintS 50000 trecv [].
Definition tev2 : wsol_event := WSolEvent tmintS 700000 trecv [].
Definition tpay : bytes := enc (c_vec8 c_instr) [].
Definition tev3 : wsol_event := WSolEvent tmintS 60000 trecv tpay.
Definition tev4 : wsol_event := WSolEvent tmintS (u64max + 40000) trecv [].
Definition tev5 : wever_event := WEverEvent tever (str "Ever Token") (str "EVT") 9 80000 trecv [].
Definition tev6 : wever_event := WEverEvent tever (str "Ever Token") (str "EVT") 9 90000 trecv tpay.
Definition tev7 : wever_event := WEverEvent tever (str "Ever Token") (str "EVT") 9 (u64max + 70000) trecv [].
Definition tev8 : wever_event := WEverEvent (AddrStd 0 (knum 73)) (str "Tiny Token") (str "TIN") 95 (2 ^ 128 - 1) trecv [].
Definition tev9 : wsol_event := WSolEvent tmintS (2 ^ 63) trecv [].
Definition tev10 : wsol_event := WSolEvent tmintS 10000 trecv [].
(** A payload that votes for the request which contains it. *)
Definition tev11 : wsol_event := WSolEvent tmintS 60000 trecv
  (enc (c_vec8 c_instr) [Instr tp_id [sw trelay4; ww tw13; ro tround4] (enc c_tp_ix (TpVote VConfirm))]).
(** A payload that executes two other requests. *)
Definition tev12 : wsol_event := WSolEvent tmintS 20000 trecv
  (enc (c_vec8 c_instr) (map (fun x => Instr tp_id (fst x) (enc c_tp_ix (snd x))) [texecS tw16 trecvS tmintS; texecE tw7 trecvE []])).
(** A payload that executes the request which contains it, when the record is read as one of an Ever
    token: seven bytes of the supposed recipient, the length of the supposed payload (which ends
    nine bytes behind the real one), and the supposed payload. *)
Definition tpayZ : bytes :=
  let p := enc (c_vec8 c_instr) [Instr tp_id (fst texecZ) (enc c_tp_ix (snd texecZ))] in
  repeat x00 7 ++ le 4 (blen p + 9) ++ p.
Definition tev13 : wsol_event := WSolEvent tmintZ 50000 trecv tpayZ.
(** A record that nobody voted for, in an account of the program [tevil]; its payload calls [tevil] and
    then moves 59970 tokens from the proxy account of [trecv] to the stranger. *)
Definition tforgery (st : wstatus) : bytes :=
  pad c_wsol (Z.to_nat TP_LEN) (Prop_ true (KProposal 0 (Some 255)) tstranger 0 0 (Pda 0 0 key0)
    (wsol_event_new (WSolEvent tmintS 0 trecv (enc (c_vec8 c_instr)
       [Instr tevil [ww tforged] []; Instr spl_id [ww tproxyS; ww tstrS; Meta tproxyS true false] (x03 :: le 8 59970)])))
    (WithLen 17 (WMeta st 0 0)) []).

Definition ttab : list (bytes * key * key) :=
  [(with_bump sd_settings 255, rl_id, trls);
   (with_bump (sd_relay_round 10) 255, rl_id, tround);
   (with_bump (sd_relay_round 11) 255, rl_id, tround2);
   (with_bump sd_settings 255, tp_id, tset);
   (with_bump sd_multivault 255, tp_id, tmv);
   (with_bump (sd_programdata tp_id) 254, loader_id, tpd);
   (with_bump (sd_ts_sol tmintS) 255, tp_id, ttsS);
   (with_bump (sd_vault tmintS) 255, tp_id, tvault);
   (with_bump (sd_ts_ever (knum 500)) 255, tp_id, ttsE);
   (with_bump (sd_mint (knum 500)) 255, tp_id, tmintE);
   (with_bump (ata_seeds trecv tmintE) 255, ata_id, trecvE);
   (with_bump (sd_proxy tmintS trecv) 255, tp_id, tproxyS);
   (with_bump (sd_proxy tmintE trecv) 255, tp_id, tproxyE);
   (with_bump (sd_proposal 10 7 8 tconf (knum 501)) 255, tp_id, tw1);
   (with_bump (sd_proposal 11 7 8 tconf (knum 501)) 255, tp_id, tw1b);
   (with_bump (sd_proposal 10 17 8 tconf (knum 502)) 255, tp_id, tw2);
   (with_bump (sd_proposal 10 27 8 tconf (knum 503)) 255, tp_id, tw3);
   (with_bump (sd_proposal 10 37 8 tconf (knum 504)) 255, tp_id, tw4);
   (with_bump (sd_proposal 10 47 8 tconf (knum 505)) 255, tp_id, tw5);
   (with_bump (sd_proposal 10 57 8 tconf (knum 506)) 255, tp_id, tw6);
   (with_bump (sd_proposal 10 67 8 tconf (knum 507)) 255, tp_id, tw7);
   (with_bump (sd_deposit 1) 255, tp_id, td1);
   (with_bump (sd_deposit 2) 255, tp_id, td2);
   (with_bump (sd_deposit 3) 255, tp_id, td3);
   (with_bump (sd_deposit 4) 255, tp_id, td4);
   (with_bump (sd_ts_sol tmintT) 255, tp_id, ttsT);
   (with_bump (sd_vault tmintT) 255, tp_id, tvaultT);
   (with_bump (sd_proposal 10 77 8 tconf (knum 508)) 255, tp_id, tw8);
   (with_bump (sd_proposal 10 87 8 tconf (knum 509)) 255, tp_id, tw9);
   (with_bump (sd_proposal 10 97 8 tconf (knum 509)) 255, tp_id, tw10);
   (with_bump (sd_ts_ever (knum 510)) 255, tp_id, ttsX);
   (with_bump (sd_mint (knum 510)) 255, tp_id, tmintX);
   (with_bump (ata_seeds trecv tmintX) 255, ata_id, trecvX);
   (with_bump (sd_relay_round 12) 255, rl_id, tround4);
   (with_bump (sd_proposal 10 107 8 tconf (knum 511)) 255, tp_id, tw11);
   (with_bump (sd_proposal 10 117 8 tconf (knum 503)) 255, tp_id, tw12);
   (with_bump (sd_proposal 12 127 8 tconf (knum 512)) 255, tp_id, tw13);
   (with_bump (ata_seeds tuser native_mint) 255, ata_id, tuserN);
   (with_bump (sd_ts_sol native_mint) 255, tp_id, ttsN);
   (with_bump (sd_vault native_mint) 255, tp_id, tvaultN);
   (with_bump (sd_deposit 5) 255, tp_id, td5);
   (with_bump (sd_proposal 10 137 8 tconf (knum 513)) 255, tp_id, tw14);
   (with_bump (sd_proposal 10 157 8 tconf (knum 511)) 255, tp_id, tw16);
   (with_bump (sd_relay_round 13) 255, rl_id, tround10);
   (with_bump (sd_ts_sol tmintZ) 255, tp_id, ttsZ);
   (with_bump (sd_vault tmintZ) 255, tp_id, tvaultZ);
   (with_bump (sd_proxy tmintZ trecv) 255, tp_id, tproxyZ);
   (with_bump (sd_deposit 6) 255, tp_id, td6);
   (with_bump (sd_proposal 13 147 8 tconf (knum 514)) 255, tp_id, tw15);
   (* the Ever mint and the proxy account found in the record of [tev13] when it is misread *)
   (with_bump (sd_mint (knum 515)) 255, tp_id, tmintP);
   (with_bump (sd_proxy tmintP (knum (blen tpayZ * 2 ^ 168))) 255, tp_id, tproxyP)].
Definition thash : list (bytes * key) :=
  [(enc c_ever tever, knum 500);
   (enc c_wsol_event tev1, knum 501); (enc c_wsol_event tev2, knum 502);
   (enc c_wsol_event tev3, knum 503); (enc c_wsol_event tev4, knum 504);
   (enc c_wever_event tev5, knum 505); (enc c_wever_event tev6, knum 506); (enc c_wever_event tev7, knum 507);
   (enc c_wever_event tev8, knum 508); (enc c_wsol_event tev9, knum 509); (enc c_ever (AddrStd 0 (knum 73)), knum 510);
   (enc c_wsol_event tev10, knum 511); (enc c_wsol_event tev11, knum 512);
   (enc c_wsol_event tev12, knum 513); (enc c_wsol_event tev13, knum 514);
   (enc c_ever (AddrStd 40 (knum (50000 * 2 ^ 240))), knum 515)].
Definition te : env := demo_env ttab thash.

(** ** The ledger before the token proxy is used *)
Definition taccs : list (key * acct) :=
  [(tfunder, wallet); (tauth, wallet); (tguard, wallet); (tman, wallet); (twman, wallet); (tuser, wallet);
   (trecv, wallet); (tstranger, wallet); (trelay1, wallet); (trelay2, wallet); (trelay3, wallet);
   (tpd, demo_programdata tauth);
   (trls, Acct 5000000 rl_id (pad c_rl_settings (Z.to_nat RL_SETTINGS_LEN) (RlSettings true (KSettings 255 254) 11 (knum 11) 3 1000)));
   (tround, Acct 5000000 rl_id (pad c_relay_round (Z.to_nat RELAY_ROUND_LEN)
      (RelayRound true (KRelayRound 255) 10 1800000000 [trelay1; trelay2; trelay3])));
   (tround2, Acct 5000000 rl_id (pad c_relay_round (Z.to_nat RELAY_ROUND_LEN)
      (RelayRound true (KRelayRound 255) 11 1900000000 [trelay1; trelay2; trelay3])));
   (tmintS, demo_mint (knum 18) 5000000 6);
   (tuserS, demo_token tmintS tuser 1000000);
   (trecvS, demo_token tmintS trecv 0);
   (tstrS, demo_token tmintS tstranger 2000000);
   (tmintT, demo_mint (knum 18) 5000000 6);
   (tuserT, demo_token tmintT tuser 1000000);
   (tfakeM, demo_mint tstranger 9000000 6);
   (tfakeA, demo_token tfakeM tstranger 8000000);
   (tfakeV, demo_token tfakeM tstranger 1000000);
   (tround4, Acct 5000000 rl_id (pad c_relay_round (Z.to_nat RELAY_ROUND_LEN)
      (RelayRound true (KRelayRound 255) 12 1900000000 [trelay1; trelay2; trelay3; trelay4])));
   (trelay4, wallet);
   (tround10, Acct 5000000 rl_id (pad c_relay_round (Z.to_nat RELAY_ROUND_LEN)
      (RelayRound true (KRelayRound 255) 13 1900000000
         [trelay1; trelay2; trelay3; trelay4; trelay5; trelay6; trelay7; trelay8; trelay9; trelay10])));
   (trelay5, wallet); (trelay6, wallet); (trelay7, wallet); (trelay8, wallet); (trelay9, wallet); (trelay10, wallet);
   (tmintZ, demo_mint (knum 18) 5000000 6);
   (tuserZ, demo_token tmintZ tuser 1000000);
   (tw11, Acct 1 sys_id []);
   (native_mint, Acct 3000000 spl_id (enc c_tmint (TMint (false, key0) 0 9 true (false, key0))));
   (tforged, Acct 5000000 tevil (tforgery WWaitExecute))].
Definition ts0 := demo_state taccs.

(** ** Instructions *)
Definition tinit : list meta * tp_ix :=
  ([sw tfunder; sw tauth; ww tset; ww tmv; ro tpd; ro sys_id; ro rent_id], TpInitialize tguard tman twman).
Definition tdepX (tsk user acc vault deposit mint : key) (seed amount : Z) : list meta * tp_ix :=
  ([sw tfunder; sw user; ww acc; ww vault; ww deposit; ro mint; ww tmv; ww tsk; ro tset; ro sys_id; ro spl_id; ro rent_id],
   TpDepositSol seed (str "Solana Token") (str "SOT") amount teverX 1000 (knum 72) []).
Definition tdep := tdepX ttsS.
Definition treqS (author w rr : key) (ts : Z) (ev : wsol_event) (extra : list meta) : list meta * tp_ix :=
  ([sw tfunder; sw author; ww w; ro ttsS; ro trls; ro rr; ro sys_id; ro rent_id; ro clock_id] ++ extra,
   TpWithdrawSolRequest ts 8 tconf (wse_recipient ev) (wse_amount ev) (wse_payload ev) 5000).
Definition treqE (author w rr : key) (ts : Z) (ev : wever_event) (extra : list meta) : list meta * tp_ix :=
  ([sw tfunder; sw author; ww w; ro trls; ro rr; ro sys_id; ro rent_id; ro clock_id] ++ extra,
   TpWithdrawEverRequest ts 8 tconf (wee_token ev) (wee_name ev) (wee_symbol ev) (wee_decimals ev)
     (wee_recipient ev) (wee_amount ev) (wee_payload ev) 5000).
Definition tvote (r w rr : key) : list meta * tp_ix := ([sw r; ww w; ro rr], TpVote VConfirm).
Definition tregE : list meta := [sw tfunder; ro trecv; ww trecvE; ro ata_id].
Definition tadmS (a : key) (i : tp_ix) : list meta * tp_ix := ([sw a; ww tset; ro tpd], i).
Definition tadmT (a tsk : key) (i : tp_ix) : list meta * tp_ix := ([sw a; ww tsk; ro tset; ro tpd], i).
Definition tapprS (a w dst : key) : list meta * tp_ix :=
  ([sw a; ww tvault; ww w; ww dst; ww ttsS; ro tset; ro spl_id; ro clock_id], TpApproveSol).
Definition tapprE (a w dst : key) : list meta * tp_ix :=
  ([sw a; ww tmintE; ww w; ww dst; ww ttsE; ro tset; ro spl_id; ro clock_id], TpApproveEver).
Definition tdepE (seed amount : Z) : list meta * tp_ix :=
  ([sw tfunder; sw trecv; ww trecvE; ww td3; ww tmintE; ww tmv; ww ttsE; ro tset; ro sys_id; ro spl_id; ro rent_id],
   TpDepositEver seed amount teverX 2000 (knum 72) []).
Definition tcancel (author w : key) : list meta * tp_ix :=
  ([sw tfunder; sw author; ro tmintS; ww w; ww td2; ro tset; ro ttsS; ro sys_id; ro rent_id; ww tmv],
   TpCancel 2 teverX 3000 (knum 72) []).
Definition tfill (author acc deposit : key) (seed amount : Z) (ws : list key) : list meta * tp_ix :=
  ([sw tfunder; sw author; ww acc; ro tmintS; ww deposit; ro tset; ro sys_id; ro ttsS; ro spl_id; ro rent_id; ww tmv]
     ++ map ww ws ++ [ww tvault],
   TpFill seed teverX amount 3000 (knum 72) []).
Definition tclose (w author : key) : list meta * tp_ix := ([ww w; ww author], TpCloseWithdrawal).

Definition tstp (s : state) (x : list meta * tp_ix) : res state := do_tp te no_ext (fst x) (snd x) s.
(** Several instructions. *)
Fixpoint tstps (s : state) (l : list (list meta * tp_ix)) : res state :=
  match l with [] => Ok s | x :: r => rbind (tstp s x) (fun s' => tstps s' r) end.
Definition tvotes (w rr : key) := [tvote trelay1 w rr; tvote trelay2 w rr; tvote trelay3 w rr].

(** A state in which the accounts that differ from the beginning are written out, so that what follows need not
    evaluate what came before.  TpDemoLaws.v shows that it has the same accounts. *)
Definition demo_keys : list key := map fst taccs ++ map snd ttab.
Definition acct_eqb (a b : acct) : bool := (lam a =? lam b) && keqb (own a) (own b) && beqb (dat a) (dat b).
Definition changes (s : state) : list (key * acct) :=
  filter (fun '(k, a) => negb (acct_eqb a (accs ts0 k))) (map (fun k => (k, accs s k)) (map snd ttab ++ map fst taccs)).
Definition frozen (l : list (key * acct)) (b : list bytes) : state := St (acct_lookup (l ++ taccs)) b 1700000000.

(** initialised; the Solana token registered by a deposit of 100000 *)
Definition ts1 := unres (tstp ts0 tinit).
Definition ts2 := unres (tstp ts1 (tdep tuser tuserS tvault td1 tmintS 1 100000)).
(** [tev1] requested, confirmed and paid *)
Definition ts3 := unres (tstp ts2 (treqS trecv tw1 tround 7 tev1 [])).
Definition ts4r := unres (tstps ts3 (tvotes tw1 tround)).
Definition ts4_changes := Eval vm_compute in changes ts4r.
Definition ts4_logs := Eval vm_compute in logs ts4r.
Definition ts4 := frozen ts4_changes ts4_logs.
Definition ts5 := unres (tstp ts4 (texecS tw1 trecvS tmintS)).
(** [tev5] requested, confirmed, paid with registration of the token *)
Definition ts6 := unres (tstp ts5 (treqE trecv tw5 tround 47 tev5 [])).
Definition ts7r := unres (tstps ts6 (tvotes tw5 tround)).
Definition ts7_changes := Eval vm_compute in changes ts7r.
Definition ts7_logs := Eval vm_compute in logs ts7r.
Definition ts7 := frozen ts7_changes ts7_logs.
Definition ts8 := unres (tstp ts7 (texecE tw5 trecvE tregE)).
(** [tev2] exceeds the vault: requested, confirmed, pending *)
Definition ts9 := unres (tstp ts8 (treqS trecv tw2 tround 17 tev2 [])).
Definition ts10 := unres (tstps ts9 (tvotes tw2 tround)).
Definition ts11r := unres (tstp ts10 (texecS tw2 trecvS tmintS)).
Definition ts11_changes := Eval vm_compute in changes ts11r.
Definition ts11_logs := Eval vm_compute in logs ts11r.
Definition ts11 := frozen ts11_changes ts11_logs.
(** [tev3] has a payload: requested with a proxy, confirmed, waits for execution *)
Definition tproxyS3 : list meta := [ww tproxyS; ro tmintS; ro spl_id].
Definition ts12 := unres (tstp ts2 (treqS trecv tw3 tround 27 tev3 tproxyS3)).
Definition ts13 := unres (tstps ts12 (tvotes tw3 tround)).
Definition ts14r := unres (tstp ts13 (texecS tw3 tproxyS tmintS)).
Definition ts14_changes := Eval vm_compute in changes ts14r.
Definition ts14_logs := Eval vm_compute in logs ts14r.
Definition ts14 := frozen ts14_changes ts14_logs.
(** limits lowered: [tev1] must be approved *)
Definition ts15 := unres (tstp ts4 (tadmT tman ttsS (TpChangeWithdrawalLimits (Some 10000) (Some 90000)))).
Definition ts16 := unres (tstp ts15 (texecS tw1 trecvS tmintS)).
(** while [tev2] is pending, fees are raised, limits lowered and the vault is filled; then it is paid *)
Definition ts17 := unres (tstp ts11 (tadmT tman ttsS (TpUpdateFee FWithdrawal 1 100))).
Definition ts18 := unres (tstp ts17 (tadmT tman ttsS (TpChangeWithdrawalLimits (Some 10000) (Some 90000)))).
Definition ts19r := unres (tstp ts18 (tdep tuser tuserS tvault td2 tmintS 2 900000)).
Definition ts19_changes := Eval vm_compute in changes ts19r.
Definition ts19_logs := Eval vm_compute in logs ts19r.
Definition ts19 := frozen ts19_changes ts19_logs.
Definition ts20 := unres (tstp ts19 (texecS tw2 trecvS tmintS)).
(** [tev4] requested, confirmed, paid *)
Definition ts21 := unres (tstp ts2 (treqS trecv tw4 tround 37 tev4 [])).
Definition ts22r := unres (tstps ts21 (tvotes tw4 tround)).
Definition ts22_changes := Eval vm_compute in changes ts22r.
Definition ts22_logs := Eval vm_compute in logs ts22r.
Definition ts22 := frozen ts22_changes ts22_logs.
Definition ts23 := unres (tstp ts22 (texecS tw4 trecvS tmintS)).
(** [tev7] requested, confirmed, paid *)
Definition ts24 := unres (tstp ts8 (treqE trecv tw7 tround 67 tev7 [])).
Definition ts25r := unres (tstps ts24 (tvotes tw7 tround)).
Definition ts25_changes := Eval vm_compute in changes ts25r.
Definition ts25_logs := Eval vm_compute in logs ts25r.
Definition ts25 := frozen ts25_changes ts25_logs.
Definition ts26 := unres (tstp ts25 (texecE tw7 trecvE [])).
(** [tev8] requested, confirmed, paid with registration of the token *)
Definition texecX : list meta * tp_ix :=
  ([ww tw8; ww tmintX; ww trecvX; ww ttsX; ro tset; ro sys_id; ro spl_id; ro rent_id; ro clock_id] ++
   [sw tfunder; ro trecv; ww trecvX; ro ata_id], TpWithdrawEver).
Definition ts30 := unres (tstp ts2 (treqE trecv tw8 tround 77 tev8 [])).
Definition ts31r := unres (tstps ts30 (tvotes tw8 tround)).
Definition ts31_changes := Eval vm_compute in changes ts31r.
Definition ts31_logs := Eval vm_compute in logs ts31r.
Definition ts31 := frozen ts31_changes ts31_logs.
Definition ts32 := unres (tstp ts31 texecX).
(** a withdrawal fee of one token; [tev9] requested and confirmed twice, both exceed the vault and are pending;
    all but the fee is offered as bounty *)
Definition ts33 := unres (tstp ts2 (tadmT tman ttsS (TpUpdateFee FWithdrawal 0 1))).
Definition ts34 := unres (tstps ts33 (treqS trecv tw9 tround 87 tev9 [] :: tvotes tw9 tround ++ [texecS tw9 trecvS tmintS])).
Definition ts35 := unres (tstps ts34 (treqS trecv tw10 tround 97 tev9 [] :: tvotes tw10 tround ++ [texecS tw10 trecvS tmintS])).
Definition tbounty (w : key) : list meta * tp_ix := ([sw trecv; ww w], TpChangeBounty (2 ^ 63 - 1)).
Definition ts36r := unres (tstps ts35 [tbounty tw9; tbounty tw10]).
Definition ts36_changes := Eval vm_compute in changes ts36r.
Definition ts36_logs := Eval vm_compute in logs ts36r.
Definition ts36 := frozen ts36_changes ts36_logs.

(** Balances and records. *)
Definition tbal (s : state) (k : key) : Z :=
  match spl_unpack c_tacc TACC_LEN ta_init (dat (accs s k)) with Ok t => ta_amount t | Err _ => -1 end.
Definition tsup (s : state) (k : key) : Z :=
  match spl_unpack c_tmint TMINT_LEN tm_init (dat (accs s k)) with Ok t => tm_supply t | Err _ => -1 end.
Definition tws (s : state) (k : key) : option wstatus :=
  match unpack c_wsol TP_LEN (@p_init _ _) (dat (accs s k)) with Ok t => Some (w_status t) | Err _ => None end.
Definition twe (s : state) (k : key) : option wstatus :=
  match unpack c_wever TP_LEN (@p_init _ _) (dat (accs s k)) with Ok t => Some (w_status t) | Err _ => None end.
Definition ttk (s : state) (k : key) : option token_settings :=
  match unpack c_token_settings TP_LEN tk_init (dat (accs s k)) with Ok t => Some t | Err _ => None end.
