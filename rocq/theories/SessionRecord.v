(** SessionRecord.v: state/record/session.go. *)
From Verif Require Import Base Labels Crypto Ecc Keys Messages SessionState.

(** state/record/session.go:98-103 Session *)
Record record : Type := { r_cur : state; r_prev : list state; r_fresh : bool }.

(** state/record/session.go:9 *)
Definition archived_max : nat := 40.

(** state/record/session.go:33-42 NewSession *)
Definition new_record : record := {| r_cur := new_state; r_prev := []; r_fresh := true |}.

(** state/record/session.go:78-87 NewSessionFromState *)
Definition record_from_state (s : state) : record := {| r_cur := s; r_prev := []; r_fresh := false |}.

(** Assignment to the current state (SetState, state/record/session.go:107-109, or mutation through SessionState()). *)
Definition set_cur (s : state) (r : record) : record :=
  {| r_cur := s; r_prev := r_prev r; r_fresh := r_fresh r |}.
Definition set_prev (l : list state) (r : record) : record :=
  {| r_cur := r_cur r; r_prev := l; r_fresh := r_fresh r |}.

(** state/record/session.go:131-146 HasSessionState: version and serialized base key; an unset base key
    compares as the empty string. *)
Definition base_bytes (s : state) : bytes := match s_base s with Some k => ser_pub k | None => [] end.
Definition state_matches (version : Z) (base : bytes) (s : state) : bool :=
  (s_version s =? version)%Z && bytes_eqb base (base_bytes s).
Definition has_session_state (version : Z) (base : bytes) (r : record) : bool :=
  state_matches version base (r_cur r) || existsb (state_matches version base) (r_prev r).

(** state/record/session.go:157-165 PromoteState *)
Definition promote_state (s : state) (r : record) : record :=
  let l := r_cur r :: r_prev r in
  {| r_cur := s; r_prev := if (archived_max <? length l)%nat then removelast l else l;
     r_fresh := r_fresh r |}.

(** state/record/session.go:151-153 ArchiveCurrentState *)
Definition archive_current (r : record) : record := promote_state new_state r.

(** state/record/session.go:92-95 SessionStructure *)
Record record_struct : Type := { rs_cur : state_struct; rs_prev : list state_struct }.

(** state/record/session.go:188-197 structure *)
Definition record_structure (r : record) : res record_struct :=
  prev <- map_res state_structure (r_prev r) ;;
  cur <- state_structure (r_cur r) ;;
  Ok {| rs_cur := cur; rs_prev := prev |}.

(** state/record/session.go:46-74 NewSessionFromStructure *)
Definition record_from_structure (t : record_struct) : res record :=
  prev <- map_res state_from_structure (rs_prev t) ;;
  cur <- state_from_structure (rs_cur t) ;;
  Ok {| r_cur := cur; r_prev := prev; r_fresh := false |}.
