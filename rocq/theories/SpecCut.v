(** * SpecCut: the creation or the deletion of a graph is cut off (C79) *)
From Verif Require Import PyBase FS Store SpecGdbms.

Definition begins (a t : pystr) : Prop := exists b, t = a ++ b.
(** what a new graph has in its files *)
Definition new_database : pystr := py "{}".
Definition new_indexes : pystr := py "{""node_relationships"": {}, ""node_labels"": [], ""relationship_names"": []}".
Definition new_counter : pystr := py "0".

(** the texts of database, index and counter ([None]: no such file) at the moments of a creation; of the file that
    is being written any beginning may have arrived *)
Inductive moment : option pystr -> option pystr -> option pystr -> Prop :=
| no_file : moment None None None
| at_database : forall a, begins a new_database -> moment (Some a) None None
| at_indexes : forall a, begins a new_indexes -> moment (Some new_database) (Some a) None
| at_counter : forall a, begins a new_counter -> moment (Some new_database) (Some new_indexes) (Some a).
Definition texts (g : gdbms) (w : world) (a b c : option pystr) : Prop :=
  entry_at (database_fp g) w = option_map EFile a /\ entry_at (indexes_fp g) w = option_map EFile b /\
  entry_at (wiggle_number_fp g) w = option_map EFile c.

(** nothing but the folder [d] and the files of [g] differs; the folder is as it was, or it is there now, and it is
    there if one of the files is *)
Record only_graph_differs (d : path) (g : gdbms) (w v : world) : Prop := {
  other_things : forall p, p <> d -> ~ In p (files_of g) -> entry_at p v = entry_at p w;
  folder_then : entry_at d v = entry_at d w \/ entry_at d v = Some EDir;
  folder_needed : forall p, In p (files_of g) -> entry_at p v <> None -> entry_at d v = Some EDir }.
