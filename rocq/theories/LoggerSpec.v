(** LoggerSpec.v: what the package logger should do, used to state C90. Nothing here models code. *)
From Verif Require Import Base Logger.
From Coq Require Import String List.
Import ListNotations.

(** A part of a text: what stands between two separators, or between a separator and an end. *)
Definition part (sep : byte) (p s : bytes) : Prop :=
  ~ In sep p /\ exists u v, s = u ++ p ++ v /\ (u = [] \/ exists u', u = u' ++ [sep]) /\ (v = [] \/ exists v', v = sep :: v').
Definition inside (p s : bytes) : Prop := exists u v, s = u ++ p ++ v.

(** Settings let a caller through if a part of them is "all" or stands in the name of the caller. *)
Definition lets_through (settings caller : bytes) : Prop := exists p, part x2c p settings /\ (p = str "all" \/ inside p caller).

(** The last Setup of a history, and the last Configure since. *)
Inductive in_force : Type := Own (id : N) | Standard (settings : option bytes).
Fixpoint force_after (l : list lcall) (f : in_force) : in_force :=
  match l with
  | [] => f
  | LSetup (Some id) :: r => force_after r (Own id)
  | LSetup None :: r => force_after r (Standard None)
  | LConfigure t :: r => force_after r match f with Own id => Own id | Standard _ => Standard (Some t) end
  | LLog _ _ _ _ :: r => force_after r f
  end.
(** The name of a file without its directories. *)
Definition base_name (path name : bytes) : Prop := ~ In x2f name /\ (path = name \/ exists d, path = d ++ x2f :: name).

(** What one logging call should put out. *)
Definition expected (f : in_force) (lv : level) (caller msg : bytes) (o : list outcome) : Prop :=
  match f with
  | Own id => o = [Handed id lv caller msg]
  | Standard st =>
      match lv with
      | LDebug | LInfo => o = []
      | LWarning | LError =>
          ((st = None \/ exists t, st = Some t /\ lets_through t caller) /\ o = [Printed lv caller msg]) \/
          ((exists t, st = Some t /\ ~ lets_through t caller) /\ o = [])
      end
  end.
