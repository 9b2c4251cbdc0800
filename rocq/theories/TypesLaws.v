(** Codec laws for every record and instruction type. *)

From Coq Require Import ZifyBool ZifyNat ZifyN.
From Verif Require Export Types CodecLaws.

Ltac dpairs := repeat match goal with p : (_ * _)%type |- _ => destruct p end.

Ltac tac_iso :=
  apply lawful_iso;
  [ intros; dpairs; reflexivity | intros []; reflexivity | typeclasses eauto ].

Ltac tac_enum :=
  lazymatch goal with |- Lawful ?c => unfold c end; split;
  [ let x := fresh "x" in let r := fresh "r" in let H := fresh "H" in
    intros x r H; destruct x; cbn [enc dec okb app dec_enum] in *;
    lazymatch goal with |- (match nth_error ?l ?n with _ => _ end) = _ =>
      let n' := eval vm_compute in n in change n with n' end;
    cbn [nth_error];
    first [ rewrite alt_rt; [reflexivity | typeclasses eauto | exact H] | reflexivity ]
  | let b := fresh "b" in let x := fresh "x" in let r := fresh "r" in let H := fresh "H" in
    intros b x r H; cbn [dec] in H; destruct b as [|t b]; [discriminate|];
    cbn [dec_enum] in H;
    destruct t;
    lazymatch type of H with (match nth_error ?l ?n with _ => _ end) = _ =>
      let n' := eval vm_compute in n in change n with n' in H end;
    cbn [nth_error] in H; try discriminate;
    (apply alt_some in H; [|typeclasses eauto]);
    let a := fresh "a" in let E1 := fresh in let E2 := fresh in let O := fresh in
    destruct H as [a [E1 [E2 O]]]; dpairs; subst; cbn [enc okb app] in *; auto ].

#[export] Instance lawful_vote : Lawful c_vote.
Proof. tac_enum. Qed.

#[export] Instance ne_vote : NonEmpty c_vote.
Proof. split. intros [| |]; cbn; lia. Qed.

#[export] Instance lawful_ever : Lawful c_ever.
Proof. tac_enum. Qed.

#[export] Instance lawful_kind : Lawful c_kind.
Proof. tac_enum. Qed.

#[export] Instance lawful_pda : Lawful c_pda.
Proof. tac_iso. Qed.

#[export] Instance lawful_withlen {A} (c : codec A) : Lawful c -> Lawful (c_withlen c).
Proof. intros L. tac_iso. Qed.

#[export] Instance lawful_prop {E M} (ce : codec E) (cm : codec M) :
  Lawful ce -> Lawful cm -> Lawful (c_prop ce cm).
Proof. intros L1 L2. tac_iso. Qed.

#[export] Instance lawful_gprop : Lawful c_gprop.
Proof. unfold c_gprop. typeclasses eauto. Qed.

#[export] Instance lawful_rl_settings : Lawful c_rl_settings.
Proof. tac_iso. Qed.

#[export] Instance lawful_relay_round : Lawful c_relay_round.
Proof. tac_iso. Qed.

#[export] Instance lawful_rl_event : Lawful c_rl_event.
Proof. tac_iso. Qed.

#[export] Instance lawful_pstatus : Lawful c_pstatus.
Proof. tac_enum. Qed.

#[export] Instance lawful_rl_proposal : Lawful c_rl_proposal.
Proof. unfold c_rl_proposal. typeclasses eauto. Qed.

#[export] Instance lawful_rl_1 : Lawful c_rl_1. Proof. unfold c_rl_1. typeclasses eauto. Qed.
#[export] Instance lawful_rl_2 : Lawful c_rl_2. Proof. unfold c_rl_2. typeclasses eauto. Qed.
#[export] Instance lawful_rl_3 : Lawful c_rl_3. Proof. unfold c_rl_3. typeclasses eauto. Qed.
#[export] Instance lawful_rl_4 : Lawful c_rl_4. Proof. unfold c_rl_4. typeclasses eauto. Qed.
#[export] Instance lawful_rl_5 : Lawful c_rl_5. Proof. unfold c_rl_5. typeclasses eauto. Qed.

#[export] Instance lawful_rl_ix : Lawful c_rl_ix.
Proof. tac_enum. Qed.

#[export] Instance lawful_tp_settings : Lawful c_tp_settings.
Proof. tac_iso. Qed.

#[export] Instance lawful_multi_vault : Lawful c_multi_vault.
Proof. tac_iso. Qed.

#[export] Instance lawful_token_kind : Lawful c_token_kind.
Proof. tac_enum. Qed.

#[export] Instance lawful_fee_info : Lawful c_fee_info.
Proof. tac_iso. Qed.

#[export] Instance lawful_token_settings : Lawful c_token_settings.
Proof. tac_iso. Qed.

#[export] Instance lawful_dep {E M} (ce : codec E) (cm : codec M) :
  Lawful ce -> Lawful cm -> Lawful (c_dep ce cm).
Proof. intros L1 L2. tac_iso. Qed.

#[export] Instance lawful_gdep : Lawful c_gdep.
Proof. unfold c_gdep. typeclasses eauto. Qed.

#[export] Instance lawful_dsol_event : Lawful c_dsol_event.
Proof. tac_iso. Qed.

#[export] Instance lawful_dever_event : Lawful c_dever_event.
Proof. tac_iso. Qed.

#[export] Instance lawful_dsol : Lawful c_dsol.
Proof. unfold c_dsol. typeclasses eauto. Qed.

#[export] Instance lawful_dever : Lawful c_dever.
Proof. unfold c_dever. typeclasses eauto. Qed.

#[export] Instance lawful_wstatus : Lawful c_wstatus.
Proof. tac_enum. Qed.

#[export] Instance lawful_wmeta : Lawful c_wmeta.
Proof. tac_iso. Qed.

#[export] Instance lawful_wever_event : Lawful c_wever_event.
Proof. tac_iso. Qed.

#[export] Instance lawful_wsol_event : Lawful c_wsol_event.
Proof. tac_iso. Qed.

#[export] Instance lawful_wever : Lawful c_wever.
Proof. unfold c_wever. typeclasses eauto. Qed.

#[export] Instance lawful_wsol : Lawful c_wsol.
Proof. unfold c_wsol. typeclasses eauto. Qed.

#[export] Instance lawful_fee_type : Lawful c_fee_type.
Proof. tac_enum. Qed.

#[export] Instance lawful_tp_5 : Lawful c_tp_5. Proof. unfold c_tp_5. typeclasses eauto. Qed.
#[export] Instance lawful_tp_6 : Lawful c_tp_6. Proof. unfold c_tp_6. typeclasses eauto. Qed.
#[export] Instance lawful_tp_7 : Lawful c_tp_7. Proof. unfold c_tp_7. typeclasses eauto. Qed.
#[export] Instance lawful_tp_8 : Lawful c_tp_8. Proof. unfold c_tp_8. typeclasses eauto. Qed.
#[export] Instance lawful_tp_9 : Lawful c_tp_9. Proof. unfold c_tp_9. typeclasses eauto. Qed.
#[export] Instance lawful_tp_14 : Lawful c_tp_14. Proof. unfold c_tp_14. typeclasses eauto. Qed.
#[export] Instance lawful_tp_21 : Lawful c_tp_21. Proof. unfold c_tp_21. typeclasses eauto. Qed.
#[export] Instance lawful_tp_22 : Lawful c_tp_22. Proof. unfold c_tp_22. typeclasses eauto. Qed.
#[export] Instance lawful_tp_26 : Lawful c_tp_26. Proof. unfold c_tp_26. typeclasses eauto. Qed.
#[export] Instance lawful_tp_27 : Lawful c_tp_27. Proof. unfold c_tp_27. typeclasses eauto. Qed.

#[export] Instance lawful_tp_ix : Lawful c_tp_ix.
Proof. tac_enum. Qed.

#[export] Instance lawful_np_ix : Lawful c_np_ix.
Proof. tac_enum. Qed.

#[export] Instance lawful_ev_deposit : Lawful c_ev_deposit. Proof. tac_iso. Qed.
#[export] Instance lawful_ev_request : Lawful c_ev_request. Proof. tac_iso. Qed.
#[export] Instance lawful_ev_token : Lawful c_ev_token. Proof. tac_iso. Qed.
#[export] Instance lawful_ev_status : Lawful c_ev_status. Proof. tac_iso. Qed.
#[export] Instance lawful_ev_fee : Lawful c_ev_fee. Proof. tac_iso. Qed.
#[export] Instance lawful_ev_name : Lawful c_ev_name. Proof. tac_iso. Qed.
#[export] Instance lawful_ev_liq : Lawful c_ev_liq. Proof. tac_iso. Qed.
