(** Property C55, continued: whose signatures the client builders ask for. *)

From Coq Require Import Strings.String.
From Verif Require Import Bindings Script Wasm CodecLaws PropClient TpDemo.
Open Scope Z_scope.
Open Scope list_scope.

(** * Vocabulary *)

(** The first [n] accounts of an instruction sign, and no other. *)
Definition first_sign (n : nat) (ms : list meta) : Prop := exists r, map m_sg ms = repeat true n ++ repeat false r.
(** How many accounts sign: those who pay, and those on whose behalf something is done. *)
Definition tp_signatures (i : tp_ix) : nat :=
  match i with
  | TpWithdrawEver | TpWithdrawSol | TpExecutePayloadEver | TpExecutePayloadSol | TpCloseWithdrawal => 0
  | TpInitialize _ _ _ | TpDepositEver _ _ _ _ _ _ | TpDepositSol _ _ _ _ _ _ _ _
  | TpWithdrawEverRequest _ _ _ _ _ _ _ _ _ _ _ | TpWithdrawSolRequest _ _ _ _ _ _ _ | TpCancel _ _ _ _ _ | TpFill _ _ _ _ _ _ => 2
  | _ => 1
  end.
Definition rl_signatures (i : rl_ix) : nat :=
  match i with
  | RlInitialize _ _ _ _ | RlCreateRelayRound _ _ _ | RlCreateProposal _ _ _ _ _ | RlExecuteByAdmin => 2
  | RlWriteProposal _ _ => 0
  | _ => 1
  end.
(** The first withdrawal of an Ever token: the tenth account pays for what is created. *)
Definition tenth_signs (ms : list meta) : Prop := exists r, map m_sg ms = repeat false 9 ++ true :: repeat false r.

(** * Lemmas *)

Lemma rbind_ok {A B} (r : res A) (f : A -> res B) y : rbind r f = Ok y -> exists x, r = Ok x /\ f x = Ok y.
Proof. destruct r as [x|er]; cbn [rbind]; [eauto|discriminate]. Qed.
Ltac unbuild := repeat match goal with
  | H : rbind _ _ = Ok _ |- _ => apply rbind_ok in H as (? & ? & H)
  end.

Definition unsigned (ms : list meta) : Prop := exists r, map m_sg ms = repeat false r.
Lemma unsigned_app a b : unsigned a -> unsigned b -> unsigned (a ++ b).
Proof. intros (n & A) (m & B). exists (n + m)%nat. rewrite map_app, A, B, repeat_app. reflexivity. Qed.
Lemma unsigned_nil : unsigned [].
Proof. exists 0%nat. reflexivity. Qed.
Lemma unsigned_cons m l : m_sg m = false -> unsigned l -> unsigned (m :: l).
Proof. intros M (r & L). exists (Datatypes.S r). cbn [map repeat]. rewrite M, L. reflexivity. Qed.
Lemma first_cons m l n : m_sg m = true -> first_sign n l -> first_sign (Datatypes.S n) (m :: l).
Proof. intros M (r & L). exists r. cbn [map repeat app]. rewrite M, L. reflexivity. Qed.
Lemma first_none l : unsigned l -> first_sign 0 l.
Proof. intros (r & L). exists r. exact L. Qed.
Lemma proxy_metas_unsigned e p m r x : proxy_metas e p m r = Ok x -> unsigned x.
Proof.
  unfold proxy_metas. destruct (nil_b p); intros H; [injection H as <-; apply unsigned_nil|]. unbuild. injection H as <-.
  repeat (apply unsigned_cons; [reflexivity|]). apply unsigned_nil.
Qed.
Lemma fill_metas_unsigned e m l x : fill_metas e m l = Ok x -> unsigned x.
Proof.
  revert x. induction l as [|[w t] l IH]; intros x H; cbn [fill_metas] in H; [injection H as <-; apply unsigned_nil|].
  unbuild. injection H as <-. apply unsigned_cons; [reflexivity|]. apply unsigned_cons; [reflexivity|]. apply IH. assumption.
Qed.
Ltac signs := cbn [i_metas app tp_signatures rl_signatures]; repeat (apply first_cons; [reflexivity|]); apply first_none;
  repeat first [apply unsigned_nil | apply unsigned_cons; [reflexivity|] | apply unsigned_app
    | eapply proxy_metas_unsigned; eassumption | eapply fill_metas_unsigned; eassumption
    | match goal with |- unsigned (match ?v with Some _ => _ | None => _ end) => destruct v end].

Lemma tp_build_ok ms i b : tp_build ms i = Ok b -> i_pid b = tp_id /\ i_data b = enc c_tp_ix i /\ i_metas b = ms.
Proof. intros H. injection H as <-. auto. Qed.
Lemma rl_build_ok ms i b : rl_build ms i = Ok b -> i_pid b = rl_id /\ i_data b = enc c_rl_ix i /\ i_metas b = ms.
Proof. intros H. injection H as <-. auto. Qed.
Ltac heads t := lazymatch t with ?f _ => heads f | _ => t end.
Ltac built H := repeat match type of H with
  | rbind _ _ = Ok _ => fail 1 | tp_build _ _ = Ok _ => fail 1 | rl_build _ _ = Ok _ => fail 1
  | ?t = Ok _ => let h := heads t in unfold h in H end.

(** * C55 The builders ask for the signatures of those who pay or act, and of nobody else *)

(** In particular none is asked of a program, a sysvar or a derived address, which could not give it. *)
Theorem C55_signers : forall e,
  (forall b, tp_built e b -> exists i, i_pid b = tp_id /\ i_data b = enc c_tp_ix i /\
     (first_sign (tp_signatures i) (i_metas b) \/ i = TpWithdrawEver /\ tenth_signs (i_metas b))) /\
  (forall b, rl_built e b -> exists i, i_pid b = rl_id /\ i_data b = enc c_rl_ix i /\ first_sign (rl_signatures i) (i_metas b)) /\
  (forall f a sd z r v ev p b, np_deposit_ix e f a sd z r v ev p = Ok b -> first_sign 2 (i_metas b)).
Proof.
  intros e. split; [|split].
  - intros b B. destruct B as
      [????? x H|?????????? x H|???????????? x H|?????????????? x H|??????????? x H|???? x H|??? x H|??? x H|???? x H|???? x H|??? x H|??? x H
      |?? x H|?? x H|?? x H|? x H|? x H|? x H|??? x H|???? x H|??? x H|???? x H|?? x H|?? x H|?? x H|????? x H|???? x H|????? x H|???? x H|????? x H|???? x H
      |??? x H|????????? x H|??????????? x H|???? x H|?? x H|?? x H|??? x H];
    built H; unbuild; apply tp_build_ok in H; destruct H as (P & D & ->); eexists; (split; [exact P|]); (split; [exact D|]);
    first [left; signs; fail | right; split; [reflexivity|]; exists 2%nat; reflexivity | right; split; [reflexivity|]; exists 3%nat; reflexivity].
  - intros b B. destruct B as [?????? x H|????? x H|????? x H|??????? x H|??? x H|??? x H|???? x H|??? x H|???? x H];
    built H; unbuild; apply rl_build_ok in H; destruct H as (P & D & ->); eexists; (split; [exact P|]); (split; [exact D|]); signs.
  - intros f a sd z r v ev p b H. unfold np_deposit_ix in H. unbuild. injection H as <-. signs.
Qed.

(** A withdrawal with payload of an Ever token: nine accounts, none signs; the first withdrawal of a token: the funder signs. *)
Example C55_signers_ex :
  (exists b, withdrawal_ever_with_payload_ix te tw5 trecv tever = Ok b /\ tp_built te b /\ first_sign 0 (i_metas b) /\ List.length (i_metas b) = 9%nat) /\
  (exists b, create_ever_token_ix te tfunder tw5 trecv tever = Ok b /\ tp_built te b /\ tenth_signs (i_metas b)) /\
  (exists b, vote_for_withdrawal_request_ix te trelay1 tw5 10 VConfirm = Ok b /\ tp_built te b /\ first_sign 1 (i_metas b)).
Proof.
  split; [|split]; eexists; (split; [vm_compute; reflexivity|]).
  - split; [apply (tb_ever_payload te tw5 trecv tever); vm_compute; reflexivity|]. split; [exists 9%nat; reflexivity|reflexivity].
  - split; [apply (tb_new_ever te tfunder tw5 trecv tever); vm_compute; reflexivity|]. exists 2%nat. reflexivity.
  - split; [apply (tb_vote te trelay1 tw5 10 VConfirm); vm_compute; reflexivity|]. exists 2%nat. reflexivity.
Qed.
Print Assumptions C55_signers.
