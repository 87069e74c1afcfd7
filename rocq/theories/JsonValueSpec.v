(** JsonValueSpec.v: which Go value a JSON value is read as, stated without the decoder of Json.v (of that file only the types [json],
    [ty] and [gval] are used). Decimal numbers are those strconv prints (Itoa.v). C60. *)
From Verif Require Import Base Itoa Json JsonSpec JsonStringSpec.
Import ListNotations.
Open Scope list_scope.
Local Open Scope N_scope.

(** What a field holds that was never set. *)
Inductive unset : ty -> gval -> Prop :=
| Unset_u32 : unset TU32 (VU32 0)
| Unset_int : unset TInt (VInt 0)
| Unset_bool : unset TBool (VBool false)
| Unset_bytes : unset TBytes (VBytes None)
| Unset_ptr fs : unset (TPtr fs) (VPtr None)
| Unset_slice t : unset (TSlice t) (VSlice None).

(** One element of a byte string given as an array. *)
Inductive reads_byte : json -> byte -> Prop :=
| Byte_null : reads_byte JNull x00
| Byte_num b : reads_byte (JNum (dec_n (b2n b))) b.

(** [reads_value j t old v]: reading j into a variable of type t that holds old leaves v in it. *)
Inductive reads_value : json -> ty -> gval -> gval -> Prop :=
| Read_u32 n old : n < 2 ^ 32 -> reads_value (JNum (dec_n n)) TU32 old (VU32 n)
| Read_u32_null old : reads_value JNull TU32 old old
| Read_int z old : (- 2 ^ 63 <= z < 2 ^ 63)%Z -> reads_value (JNum (itoa z)) TInt old (VInt z)
| Read_int_minus_zero old : reads_value (JNum [x2d; x30]) TInt old (VInt 0)
| Read_int_null old : reads_value JNull TInt old old
| Read_bool b old : reads_value (JBool b) TBool old (VBool b)
| Read_bool_null old : reads_value JNull TBool old old
| Read_bytes raw s l old : reads raw s -> base64_read l s -> reads_value (JStr raw) TBytes old (VBytes (Some l))
| Read_bytes_array js l old : Forall2 reads_byte js l -> reads_value (JArr js) TBytes old (VBytes (Some l))
| Read_bytes_null old : reads_value JNull TBytes old (VBytes None)
| Read_object ms fs start old vs : contents fs old start -> reads_members ms fs start vs -> reads_value (JObj ms) (TPtr fs) old (VPtr (Some vs))
| Read_object_null fs old : reads_value JNull (TPtr fs) old (VPtr None)
| Read_array js t vs old : reads_elements js t vs -> reads_value (JArr js) (TSlice t) old (VSlice (Some vs))
| Read_array_null t old : reads_value JNull (TSlice t) old (VSlice None)
(** The fields before the first member is read: those that are there already, or else unset ones. *)
with contents : list (bytes * ty) -> gval -> list gval -> Prop :=
| Contents_old fs vs : contents fs (VPtr (Some vs)) vs
| Contents_new fs vs : Forall2 unset (map snd fs) vs -> contents fs (VPtr None) vs
(** Member by member; a member that names no field is skipped, one that names a field is read into it. *)
with reads_members : list (bytes * json) -> list (bytes * ty) -> list gval -> list gval -> Prop :=
| Members_nil fs vs : reads_members [] fs vs vs
| Members_skip k key j ms fs vs vs' : reads k key -> (forall i, ~ member_field key (map fst fs) i) -> reads_members ms fs vs vs' ->
    reads_members ((k, j) :: ms) fs vs vs'
| Members_set k key j ms fs pre old post new vs' n t : reads k key -> member_field key (map fst fs) (length pre) -> nth_error fs (length pre) = Some (n, t) ->
    reads_value j t old new -> reads_members ms fs (pre ++ new :: post) vs' -> reads_members ((k, j) :: ms) fs (pre ++ old :: post) vs'
with reads_elements : list json -> ty -> list gval -> Prop :=
| Elements_nil t : reads_elements [] t []
| Elements_cons j js t z v vs : unset t z -> reads_value j t z v -> reads_elements js t vs -> reads_elements (j :: js) t (v :: vs).

(** What json.Unmarshal makes of a text for a structure with the fields fs, all unset before. *)
Definition structure_read (fs : list (bytes * ty)) (s : bytes) (vs : list gval) : Prop :=
  (json_text JNull s /\ Forall2 unset (map snd fs) vs) \/
  exists ms start, json_text (JObj ms) s /\ Forall2 unset (map snd fs) start /\ reads_members ms fs start vs.
