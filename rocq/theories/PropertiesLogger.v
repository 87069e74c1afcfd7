(** PropertiesLogger.v: what the package logger puts out (C90). The vocabulary is in LoggerSpec.v: [part], [inside], [lets_through] (which callers settings
    let through), [in_force] and [force_after] (the last Setup and the last Configure since), [base_name], [expected]; [lstep] and [lrun] (Logger.v) are
    the calls of the package. *)
From Coq Require Import String List ZArith.
From Verif Require Import Base Itoa Logger LoggerSpec LoggerProofs.
Import ListNotations.
Local Open Scope list_scope.

(** After any history, a logging call puts out what the last Setup, and the last Configure since, say it should. *)
Theorem C90_every_call : forall h lv path line msg,
  expected (force_after h (Standard None)) lv (get_caller path line) msg (snd (lstep (LLog lv path line msg) (fst (lrun h Unset)))).
Proof. intros h lv path line msg. apply log_spec. apply force_run. left. reflexivity. Qed.

(** A caller is the name of its file, without directories, a colon and the number of the line. *)
Theorem C90_caller : forall path line name, base_name path name -> get_caller path line = name ++ x3a :: itoa line.
Proof.
  intros path line name H. destruct (caller_spec path line) as (n & HN & E). rewrite (base_name_unique _ _ _ H HN). exact E.
Qed.
Theorem C90_caller_exists : forall path, exists name, base_name path name.
Proof. intros path. destruct (caller_spec path 0%Z) as (n & HN & _). exists n. exact HN. Qed.

(** Debug and Info messages are printed in no history: they come out only to a logger of the application's own. *)
Theorem C90_debug_never_printed : forall h lv caller msg, In (Printed lv caller msg) (snd (lrun h Unset)) -> lv = LWarning \/ lv = LError.
Proof.
  assert (K : forall h s lv caller msg, In (Printed lv caller msg) (snd (lrun h s)) -> lv = LWarning \/ lv = LError).
  { induction h as [|c h IH]; intros s lv caller msg H; [destruct H|]. cbn [lrun] in H. destruct (lstep c s) as [s1 o1] eqn:E. specialize (IH s1). destruct (lrun h s1) as [s2 o2].
    cbn [snd] in *. apply in_app_or in H. destruct H as [H|H]; [|exact (IH _ _ _ H)]. clear IH. apply (f_equal snd) in E. cbn [snd] in E. subst o1.
    destruct c as [[id|]|t|lv' path line msg']; cbn [lstep snd] in H.
    - destruct H.
    - destruct H.
    - destruct (ensure_logger s); cbn [snd] in H; [destruct H|destruct H|destruct H as [H|[]]; discriminate H].
    - destruct (ensure_logger s) as [|n|id]; [destruct H| |destruct H as [H|[]]; discriminate H].
      destruct lv'; cbn [default_call should_log] in H; try (destruct H; fail);
        (destruct (existsb _ _) in H; cbn [snd] in H; [destruct H as [H|[]]; injection H as <- _ _; auto|destruct H]). }
  intros h. apply K.
Qed.

(** Between a Setup and the next, the application's logger gets every call and every setting, in order, unchanged, and nothing is printed. *)
Definition handed (id : N) (c : lcall) : list outcome :=
  match c with LSetup _ => [] | LConfigure t => [HandedSettings id t] | LLog lv path line msg => [Handed id lv (get_caller path line) msg] end.
Theorem C90_own_logger : forall h id l, (forall x, ~ In (LSetup x) l) ->
  snd (lrun l (fst (lrun (h ++ [LSetup (Some id)]) Unset))) = flat_map (handed id) l.
Proof.
  intros h id l H. assert (E : fst (lrun (h ++ [LSetup (Some id)]) Unset) = Custom id).
  { assert (K := force_run (h ++ [LSetup (Some id)]) (Standard None) Unset (or_introl eq_refl)). rewrite force_app in K. exact K. }
  rewrite E. clear E h. induction l as [|c l IH]; [reflexivity|]. assert (IH' := IH (fun x HI => H x (or_intror HI))).
  destruct c as [x|t|lv path line msg]; [destruct (H x (or_introl eq_refl))| |]; cbn [lrun lstep ensure_logger flat_map handed];
    destruct (lrun l (Custom id)) as [s2 o2]; cbn [snd] in *; rewrite IH'; reflexivity.
Qed.

(** Settings with an empty part (no text, or a comma at an end, or two together) let everything through: "Configure with no names silences the log" is
    false. *)
Theorem C90_empty_part : forall settings caller, part x2c [] settings -> lets_through settings caller.
Proof. intros settings caller H. exists []. split; [exact H|]. right. exists [], caller. reflexivity. Qed.
Theorem C90_silence_refuted : exists caller msg, snd (lrun [LConfigure []; LLog LError caller 1 msg] Unset) <> [].
Proof. exists (str "x.go"), []. vm_compute. discriminate. Qed.

(** A setting names callers by any part of their names: "session.go lets only session.go through" is false. *)
Theorem C90_exact_name_refuted : exists path msg, base_name path (str "mysession.go") /\ snd (lrun [LConfigure (str "session.go"); LLog LError path 7 msg] Unset) <> [].
Proof.
  exists (str "a/mysession.go"), []. split; [|vm_compute; discriminate]. split; [vm_compute; intros H; repeat (destruct H as [H|H]; [discriminate H|]); exact H|].
  right. exists (str "a"). reflexivity.
Qed.

(** * Concrete cases *)

Example C90_example_parts : part x2c (str "Curve.go") (str "RootKey.go,Curve.go") /\ part x2c [] (str "a,,b").
Proof.
  split; [split; [vm_compute; intros H; repeat (destruct H as [H|H]; [discriminate H|]); exact H|]|split; [intros []|]].
  - exists (str "RootKey.go,"), []. repeat split; [right; exists (str "RootKey.go"); reflexivity|left; reflexivity].
  - exists (str "a,"), (str ",b"). repeat split; [right; exists (str "a"); reflexivity|right; exists (str "b"); reflexivity].
Qed.
Example C90_example_run : snd (lrun [LLog LDebug (str "/x/cipher.go") 352 (str "key"); LLog LError (str "/x/cipher.go") 12 (str "bad");
    LConfigure (str "curve.go,all.go"); LLog LError (str "/x/cipher.go") 12 (str "bad"); LLog LWarning (str "/x/curve.go") 3 (str "w");
    LSetup (Some 4%N); LLog LDebug (str "/x/cipher.go") 352 (str "key"); LConfigure (str "all"); LSetup None; LLog LError (str "f") (-1) (str "m")] Unset) =
  [Printed LError (str "cipher.go:12") (str "bad"); Printed LWarning (str "curve.go:3") (str "w"); Handed 4 LDebug (str "cipher.go:352") (str "key");
   HandedSettings 4 (str "all"); Printed LError (str "f:-1") (str "m")].
Proof. reflexivity. Qed.
Example C90_example_through : lets_through (str "RootKey.go,Curve.go") (str "Curve.go:12") /\ ~ lets_through (str "a.go") (str "Curve.go:12") /\ base_name (str "/x/curve.go") (str "curve.go").
Proof.
  split; [apply through_spec; reflexivity|]. split; [intros H; apply through_spec in H; discriminate H|].
  split; [vm_compute; intros H; repeat (destruct H as [H|H]; [discriminate H|]); exact H|]. right. exists (str "/x"). reflexivity.
Qed.

Print Assumptions C90_every_call.
Print Assumptions C90_caller.
Print Assumptions C90_caller_exists.
Print Assumptions C90_debug_never_printed.
Print Assumptions C90_own_logger.
Print Assumptions C90_empty_part.
Print Assumptions C90_silence_refuted.
Print Assumptions C90_exact_name_refuted.
