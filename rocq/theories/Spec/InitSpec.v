(** The file that docs/init.md:22-75 shows for "oct init" *)
From Coq Require Import String List.
From Verif.Model Require Import GoString Octopus.
Import ListNotations.
Local Open Scope string_scope.

Definition documented_init : string :=
"{
  ""version"": ""1.0.0"",
  ""tables"": [
    {
      ""name"": ""group"",
      ""columns"": [
        {
          ""name"": ""id"",
          ""type"": ""long"",
          ""desc"": ""unique id"",
          ""pk"": true,
          ""autoinc"": true
        },
        {
          ""name"": ""name"",
          ""type"": ""string"",
          ""desc"": ""group name"",
          ""size"": 40,
          ""unique"": true
        }
      ],
      ""desc"": ""Group table""
    },
    {
      ""name"": ""user"",
      ""columns"": [
        {
          ""name"": ""id"",
          ""type"": ""long"",
          ""desc"": ""unique id"",
          ""pk"": true,
          ""autoinc"": true
        },
        {
          ""name"": ""name"",
          ""type"": ""string"",
          ""desc"": ""user login name"",
          ""size"": 40,
          ""unique"": true
        },
        {
          ""name"": ""group_id"",
          ""type"": ""long"",
          ""desc"": ""group ID"",
          ""ref"": {
            ""table"": ""group"",
            ""column"": ""id""
          }
        }
      ],
      ""desc"": ""User table""
    }
  ]
}".
(** docs/init.md:11 *)
Definition documented_output : string := "db.json".

(** a schema without the relationships of its references *)
Definition plain_ref (r : reference) : reference := mkRef (ref_table r) (ref_column r) "".
Definition plain_column (c : column) : column :=
  mkCol (c_name c) (c_type c) (c_desc c) (c_size c) (c_scale c) (c_notnull c) (c_pk c) (c_uq c) (c_autoinc c)
        (c_default c) (c_onupdate c) (c_values c) (option_map plain_ref (c_ref c)).
Definition without_relationships (s : schema) : schema :=
  mkSchema (s_author s) (s_name s) (s_version s)
    (map (fun t => mkTable (t_name t) (map plain_column (t_cols t)) (t_desc t) (t_group t) (t_class t) (t_indices t))
         (s_tables s)).
