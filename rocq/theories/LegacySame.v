(** A session that is never handed over to the old code is the session of Validator.v. *)
From Verif Require Import Base Nalu Crypto Types VTypes NaluList Validator LegacyTypes Legacy.
Local Open Scope N_scope.

Lemma same_run C Ov fuel : forall ops ws v rs, w_leg ws = None -> vrun C Ov fuel (w_v ws) ops = Def (v, rs) -> ~ In VLegacy rs ->
  exists w2 xs, wrun C Ov fuel ws ops = Def (w2, xs) /\ rs = map (fun x => VRes (fst x) (snd x)) xs.
Proof.
  induction ops as [|o ops IH]; intros ws v rs EL E NL; cbn [vrun wrun] in *.
  - injection E as <- <-. exists ws, []. split; reflexivity.
  - destruct (vexec C Ov fuel (w_v ws) o) as [[v1 x]|] eqn:EX; [|discriminate]. cbn [obind] in E.
    destruct (vrun C Ov fuel v1 ops) as [[v2 xs]|] eqn:ER; [|discriminate]. cbn [obind] in E. injection E as <- <-.
    assert (NX : x <> VLegacy) by (intros ->; apply NL; left; reflexivity). assert (NL2 : ~ In VLegacy xs) by (intros H; apply NL; right; exact H).
    destruct x as [st r|]; [|congruence]. clear NX NL.
    assert (S1 : exists w1, wexec C Ov fuel ws o = Def (w1, st, r) /\ w_leg w1 = None /\ w_v w1 = v1).
    { destruct o as [data want|key| |]; cbn [vexec wexec] in *.
      - unfold w_add. rewrite EL. destruct data as [|d0 dr]; [cbn in EX; injection EX as <- <- <-; exists ws; repeat split; exact EL|].
        rewrite EX. cbn [obind]. eexists. split; [reflexivity|]. split; reflexivity.
      - destruct (set_public_key C (w_v ws) key) as [v3 s3]. injection EX as <- <- <-. eexists. split; [reflexivity|]. split; [exact EL|reflexivity].
      - injection EX as <- <- <-. unfold w_reset. rewrite EL. cbn [obind]. eexists. split; [reflexivity|]. split; reflexivity.
      - destruct (v_legacy (w_v ws)); [discriminate|]. unfold w_report. rewrite EL. destruct (get_report (w_v ws)) as [v3 r3]. injection EX as <- <- <-. eexists. split; [reflexivity|]. split; reflexivity. }
    destruct S1 as (w1 & E1 & L1 & <-). rewrite E1. cbn [obind]. destruct (IH w1 _ _ L1 ER NL2) as (w2 & ys & E2 & ->). rewrite E2. cbn [obind].
    exists w2, ((st, r) :: ys). split; reflexivity.
Qed.
