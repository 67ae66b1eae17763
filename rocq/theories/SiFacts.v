(** The ready-made units have the powers of the SI. *)
From Verif Require Import Base BaseFacts Num NumFacts UnitModel UnitOpModel SpecUnits SpecSi.
From Coq Require Import Reals.
From Flocq Require Import Core BinarySingleNaN.
Notation num := Verif.Num.num.

Lemma zero_value : nvalue (PFloat (S754_zero false)) (IZR 0).
Proof. exists (B754_zero false). split; [reflexivity|]. split; reflexivity. Qed.

Lemma si_meaning u e : In (u, e) si_units -> forall k,
  (In k si_base -> exists x, exponent u k = Some x /\ nvalue x (IZR (power_of k e))) /\
  (~ In k si_base -> exponent u k = None).
Proof.
  intros Hin k. split.
  - intros Hk. unfold si_units in Hin. cbn [In] in Hin.
    repeat (destruct Hin as [Hin|Hin];
            [injection Hin as <- <-; cbn [si_base In] in Hk;
             repeat (destruct Hk as [<-|Hk]; [eexists; split; [vm_compute; reflexivity|try exact eq_refl; exact zero_value]|]); destruct Hk|]).
    destruct Hin.
  - intros Hk. apply BaseFacts.dget_none_iff. intros H. apply Hk. revert H.
    unfold si_units in Hin. cbn [In] in Hin.
    repeat (destruct Hin as [Hin|Hin]; [injection Hin as <- <-; vm_compute; tauto|]). destruct Hin.
Qed.

Lemma names_tell u : In u ready_made -> exists p, name_powers (u_name u) = Some p /\
  forall k, In k si_base -> exists x, exponent u k = Some x /\ nvalue x (IZR (power_of k p)).
Proof.
  intros Hin. unfold ready_made in Hin. cbn [In] in Hin.
  repeat (destruct Hin as [Hin|Hin];
          [subst u; eexists; split; [vm_compute; reflexivity|]; intros k Hk; cbn [si_base In] in Hk;
           repeat (destruct Hk as [<-|Hk]; [eexists; split; [vm_compute; reflexivity|try exact eq_refl; exact zero_value]|]); destruct Hk|]).
  destruct Hin.
Qed.
Lemma names_apart u v : In u ready_made -> In v ready_made -> u_name u = u_name v -> u = v.
Proof.
  intros Hu Hv. unfold ready_made in Hu, Hv. cbn [In] in Hu, Hv.
  repeat (destruct Hu as [Hu|Hu]; [subst u; repeat (destruct Hv as [Hv|Hv]; [subst v; intros E; first [reflexivity|vm_compute in E; discriminate E]|]); destruct Hv|]). destruct Hu.
Qed.
