(** * SpecTwin: two starts of the same Python (C75)

    Two processes of one Python installation differ in the order of sets (the hash seed) and in the time they started,
    and in nothing else. *)
From Verif Require Import PyBase Json SpecJson RtLaws FS Store SpecStore SpecMake.

Record same_python (a b : PyRt) : Prop := {
  sp_word : @u_word a = @u_word b; sp_space : @u_space a = @u_space b; sp_digit : @u_digit a = @u_digit b;
  sp_upper : @u_upper a = @u_upper b; sp_lowertitle : @u_lowertitle a = @u_lowertitle b; sp_lower : @u_lower a = @u_lower b;
  sp_upcase : @u_upcase a = @u_upcase b; sp_ci : @u_ci a = @u_ci b; sp_float : @f_repr a = @f_repr b;
  sp_int : @int_ext a = @int_ext b; sp_fits : @int_fits a = @int_fits b; sp_lit : @lit_ext a = @lit_ext b }.
(** [p] is a start of the Python [base] *)
Definition start_of (base p : PyRt) : Prop := rt_data p /\ same_python base p.

(** ** The same but for the time stamps *)
(** a metadata object without its time of creation, an object whose member [name] is changed by [f] *)
Definition no_time (v : pyval) : pyval :=
  match v with VDict d => VDict (map (fun kv => if str_eqb (fst kv) (py "created_at") then (fst kv, VNone) else kv) d) | _ => v end.
Definition inside (name : pystr) (f : pyval -> pyval) (v : pyval) : pyval :=
  match v with VDict d => VDict (map (fun kv => if str_eqb (fst kv) name then (fst kv, f (snd kv)) else kv) d) | _ => v end.
Definition each (f : pyval -> pyval) (v : pyval) : pyval := match v with VList l => VList (map f l) | _ => v end.
(** a stored node without the times of creation of the node and of its relationships *)
Definition timeless (v : pyval) : pyval :=
  inside (py "relations") (each (inside (py "relationship_metadata") no_time)) (inside (py "node_metadata") no_time v).
Definition timeless_db (d : list (pystr * pyval)) : list (pystr * pyval) := map (fun kv => (fst kv, timeless (snd kv))) d.

(** ** The same sets *)
Definition same_members {A} (l l' : list A) : Prop := forall x, In x l <-> In x l'.
Definition same_index (ix ix' : index) : Prop :=
  keys (ix_rels ix) = keys (ix_rels ix') /\ (forall k, same_members (numbers_of k (ix_rels ix)) (numbers_of k (ix_rels ix'))) /\
  same_members (ix_labels ix) (ix_labels ix') /\ same_members (ix_names ix) (ix_names ix').
Definition same_but_times (G G' : graph) : Prop :=
  timeless_db (g_db G) = timeless_db (g_db G') /\ same_index (g_ix G) (g_ix G') /\ g_next G = g_next G'.

(** ** Files *)
Section SpecTwin.
  Context {rt : PyRt}.
  Definition no_json (p : path) (w : world) : Prop := exists t, file_is p t w /\ load_json t = Err JSONDecodeError.
  (** The three files of [g] hold the same graph in both worlds, perhaps damaged: the database the same nodes, or no
      JSON in either; the indexes the same sets, or no JSON in either; the counter the same text.  And both terminals
      show the same. *)
  Record alike (g : gdbms) (w w' : world) : Prop := {
    al_db : (exists d d', db_file (database_fp g) d w /\ db_file (database_fp g) d' w' /\ timeless_db d = timeless_db d') \/
            (no_json (database_fp g) w /\ no_json (database_fp g) w');
    al_ix : (exists ix ix', index_file (indexes_fp g) ix w /\ index_file (indexes_fp g) ix' w' /\ same_index ix ix') \/
            (no_json (indexes_fp g) w /\ no_json (indexes_fp g) w');
    al_wn : exists t, file_is (wiggle_number_fp g) t w /\ file_is (wiggle_number_fp g) t w';
    al_in : w_in w = w_in w';
    al_out : w_out w = w_out w' }.
End SpecTwin.
