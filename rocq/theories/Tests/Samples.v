(** The sample files of the repository (data/*.msh), loaded by the model.
    These are tests of the model, not proofs. *)

From Verif Require Import Model.Save Model.Validate.

(** data/test_2.2_ascii.msh *)
Definition f_test_22_ascii : bytes :=
  [x24;x4d;x65;x73;x68;x46;x6f;x72;x6d;x61;x74;x0a;x32;x2e;x32;x20;x30;x20;x38;x0a;x24;x45;x6e;x64;x4d;x65;x73;x68;x46;x6f;x72;x6d;x61;x74;x0a;x24;x4e;x6f;x64;x65;x73;x0a;x36;x0a;x31;x20;x30;x2e;x30;x20;x30;x2e;x30;x20;x30;x2e;x30;x0a;x32;x20;x31;x2e;x30;x20;x30;x2e;x30;x20;x30;x2e;x30;x0a;x33;x20;x31;x2e;x30;x20;x31;x2e;x30;x20;x30;x2e;x30;x0a;x34;x20;x30;x2e;x30;x20;x31;x2e;x30;x20;x30;x2e;x30;x0a;x35;x20;x32;x2e;x30;x20;x30;x2e;x30;x20;x30;x2e;x30;x0a;x36;x20;x32;x2e;x30;x20;x31;x2e;x30;x20;x30;x2e;x30;x0a;x24;x45;x6e;x64;x4e;x6f;x64;x65;x73;x0a;x24;x45;x6c;x65;x6d;x65;x6e;x74;x73;x0a;x32;x0a;x31;x20;x33;x20;x32;x20;x39;x39;x20;x32;x20;x31;x20;x32;x20;x33;x20;x34;x0a;x32;x20;x33;x20;x32;x20;x39;x39;x20;x32;x20;x32;x20;x35;x20;x36;x20;x33;x0a;x24;x45;x6e;x64;x45;x6c;x65;x6d;x65;x6e;x74;x73;x0a;x24;x4e;x6f;x64;x65;x44;x61;x74;x61;x0a;x31;x0a;x22;x41;x20;x73;x63;x61;x6c;x61;x72;x20;x76;x69;x65;x77;x22;x0a;x31;x0a;x30;x2e;x30;x0a;x33;x0a;x30;x0a;x31;x0a;x36;x0a;x31;x20;x30;x2e;x30;x0a;x32;x20;x30;x2e;x31;x0a;x33;x20;x30;x2e;x32;x0a;x34;x20;x30;x2e;x30;x0a;x35;x20;x30;x2e;x32;x0a;x36;x20;x30;x2e;x34;x0a;x24;x45;x6e;x64;x4e;x6f;x64;x65;x44;x61;x74;x61;x0a].

(** data/test_2.2_bin.msh *)
Definition f_test_22_bin : bytes :=
  [x24;x4d;x65;x73;x68;x46;x6f;x72;x6d;x61;x74;x0a;x32;x2e;x32;x20;x31;x20;x38;x0a;x01;x00;x00;x00;x24;x45;x6e;x64;x4d;x65;x73;x68;x46;x6f;x72;x6d;x61;x74;x0a;x24;x4e;x6f;x64;x65;x73;x0a;x36;x0a;x01;x00;x00;x00;x00;x00;x00;x00;x00;x00;x00;x00;x00;x00;x00;x00;x00;x00;x00;x00;x00;x00;x00;x00;x00;x00;x00;x00;x02;x00;x00;x00;x00;x00;x00;x00;x00;x00;xf0;x3f;x00;x00;x00;x00;x00;x00;x00;x00;x00;x00;x00;x00;x00;x00;x00;x00;x03;x00;x00;x00;x00;x00;x00;x00;x00;x00;xf0;x3f;x00;x00;x00;x00;x00;x00;xf0;x3f;x00;x00;x00;x00;x00;x00;x00;x00;x04;x00;x00;x00;x00;x00;x00;x00;x00;x00;x00;x00;x00;x00;x00;x00;x00;x00;xf0;x3f;x00;x00;x00;x00;x00;x00;x00;x00;x05;x00;x00;x00;x00;x00;x00;x00;x00;x00;x00;x40;x00;x00;x00;x00;x00;x00;x00;x00;x00;x00;x00;x00;x00;x00;x00;x00;x06;x00;x00;x00;x00;x00;x00;x00;x00;x00;x00;x40;x00;x00;x00;x00;x00;x00;xf0;x3f;x00;x00;x00;x00;x00;x00;x00;x00;x24;x45;x6e;x64;x4e;x6f;x64;x65;x73;x0a;x24;x45;x6c;x65;x6d;x65;x6e;x74;x73;x0a;x32;x0a;x03;x00;x00;x00;x02;x00;x00;x00;x00;x00;x00;x00;x01;x00;x00;x00;x01;x00;x00;x00;x02;x00;x00;x00;x03;x00;x00;x00;x04;x00;x00;x00;x02;x00;x00;x00;x02;x00;x00;x00;x05;x00;x00;x00;x06;x00;x00;x00;x03;x00;x00;x00;x24;x45;x6e;x64;x45;x6c;x65;x6d;x65;x6e;x74;x73;x0a;x24;x4e;x6f;x64;x65;x44;x61;x74;x61;x0a;x31;x0a;x22;x41;x20;x73;x63;x61;x6c;x61;x72;x20;x76;x69;x65;x77;x22;x0a;x31;x0a;x30;x2e;x30;x0a;x33;x0a;x30;x0a;x31;x0a;x36;x0a;x01;x00;x00;x00;x00;x00;x00;x00;x00;x00;x00;x00;x02;x00;x00;x00;x9a;x99;x99;x99;x99;x99;xb9;x3f;x03;x00;x00;x00;x9a;x99;x99;x99;x99;x99;xc9;x3f;x04;x00;x00;x00;x00;x00;x00;x00;x00;x00;x00;x00;x05;x00;x00;x00;x9a;x99;x99;x99;x99;x99;xc9;x3f;x06;x00;x00;x00;x9a;x99;x99;x99;x99;x99;xd9;x3f;x24;x45;x6e;x64;x4e;x6f;x64;x65;x44;x61;x74;x61;x0a].

(** data/test_4.1_ascii.msh *)
Definition f_test_41_ascii : bytes :=
  [x24;x4d;x65;x73;x68;x46;x6f;x72;x6d;x61;x74;x0a;x34;x2e;x31;x20;x30;x20;x38;x0a;x24;x45;x6e;x64;x4d;x65;x73;x68;x46;x6f;x72;x6d;x61;x74;x0a;x24;x45;x6e;x74;x69;x74;x69;x65;x73;x0a;x34;x20;x31;x20;x30;x20;x30;x0a;x31;x20;x30;x2e;x31;x20;x30;x2e;x31;x20;x30;x2e;x31;x20;x30;x0a;x32;x20;x30;x2e;x35;x20;x30;x2e;x31;x20;x30;x2e;x31;x20;x30;x0a;x33;x20;x30;x2e;x35;x20;x30;x2e;x35;x20;x30;x2e;x31;x20;x30;x0a;x34;x20;x30;x2e;x31;x20;x30;x2e;x35;x20;x30;x2e;x31;x20;x30;x0a;x31;x20;x30;x2e;x20;x30;x2e;x20;x30;x2e;x20;x31;x2e;x20;x31;x2e;x20;x31;x2e;x20;x30;x20;x34;x20;x31;x20;x32;x20;x33;x20;x34;x0a;x24;x45;x6e;x64;x45;x6e;x74;x69;x74;x69;x65;x73;x0a;x24;x4e;x6f;x64;x65;x73;x0a;x31;x20;x36;x20;x31;x20;x36;x0a;x32;x20;x32;x20;x30;x20;x36;x0a;x31;x0a;x32;x0a;x33;x0a;x34;x0a;x35;x0a;x36;x0a;x30;x2e;x20;x30;x2e;x20;x30;x2e;x20;x31;x2e;x20;x30;x2e;x20;x30;x2e;x20;x31;x2e;x20;x31;x2e;x20;x30;x2e;x20;x30;x2e;x20;x31;x2e;x20;x30;x2e;x20;x32;x2e;x20;x30;x2e;x20;x30;x2e;x20;x32;x2e;x20;x31;x2e;x20;x30;x2e;x0a;x24;x45;x6e;x64;x4e;x6f;x64;x65;x73;x0a;x24;x45;x6c;x65;x6d;x65;x6e;x74;x73;x0a;x31;x20;x32;x20;x31;x20;x32;x0a;x32;x20;x32;x20;x33;x20;x32;x0a;x31;x20;x31;x20;x32;x20;x33;x20;x34;x0a;x32;x20;x32;x20;x35;x20;x36;x20;x33;x0a;x24;x45;x6e;x64;x45;x6c;x65;x6d;x65;x6e;x74;x73;x0a;x24;x4e;x6f;x64;x65;x44;x61;x74;x61;x0a;x31;x0a;x22;x41;x20;x73;x63;x61;x6c;x61;x72;x20;x76;x69;x65;x77;x22;x0a;x31;x0a;x30;x2e;x30;x0a;x33;x0a;x30;x0a;x31;x0a;x36;x0a;x31;x20;x30;x2e;x30;x0a;x32;x20;x30;x2e;x31;x0a;x33;x20;x30;x2e;x32;x0a;x34;x20;x30;x2e;x30;x0a;x35;x20;x30;x2e;x32;x0a;x36;x20;x30;x2e;x34;x0a;x24;x45;x6e;x64;x4e;x6f;x64;x65;x44;x61;x74;x61;x0a].

(** data/test_4.1_bin.msh *)
Definition f_test_41_bin : bytes :=
  [x24;x4d;x65;x73;x68;x46;x6f;x72;x6d;x61;x74;x0a;x34;x2e;x31;x20;x31;x20;x38;x0a;x01;x00;x00;x00;x0a;x24;x45;x6e;x64;x4d;x65;x73;x68;x46;x6f;x72;x6d;x61;x74;x0a;x24;x45;x6e;x74;x69;x74;x69;x65;x73;x0a;x04;x00;x00;x00;x00;x00;x00;x00;x01;x00;x00;x00;x00;x00;x00;x00;x01;x00;x00;x00;x00;x00;x00;x00;x00;x00;x00;x00;x00;x00;x00;x00;x01;x00;x00;x00;x9a;x99;x99;x99;x99;x99;xb9;x3f;x9a;x99;x99;x99;x99;x99;xb9;x3f;x9a;x99;x99;x99;x99;x99;xb9;x3f;x00;x00;x00;x00;x00;x00;x00;x00;x02;x00;x00;x00;x00;x00;x00;x00;x00;x00;xe0;x3f;x9a;x99;x99;x99;x99;x99;xb9;x3f;x9a;x99;x99;x99;x99;x99;xb9;x3f;x00;x00;x00;x00;x00;x00;x00;x00;x03;x00;x00;x00;x00;x00;x00;x00;x00;x00;xe0;x3f;x00;x00;x00;x00;x00;x00;xe0;x3f;x9a;x99;x99;x99;x99;x99;xb9;x3f;x00;x00;x00;x00;x00;x00;x00;x00;x04;x00;x00;x00;x9a;x99;x99;x99;x99;x99;xb9;x3f;x00;x00;x00;x00;x00;x00;xe0;x3f;x9a;x99;x99;x99;x99;x99;xb9;x3f;x00;x00;x00;x00;x00;x00;x00;x00;x01;x00;x00;x00;x00;x00;x00;x00;x00;x00;x00;x00;x00;x00;x00;x00;x00;x00;x00;x00;x00;x00;x00;x00;x00;x00;x00;x00;x00;x00;x00;x00;x00;x00;x00;x00;x00;x00;x00;x00;x00;x00;x00;x00;x00;x00;x00;x00;x00;x00;x00;x00;x00;x00;x00;x00;x00;x00;x00;x00;x00;x00;x00;x00;x00;x00;x00;x00;x02;x00;x00;x00;x00;x00;x00;x00;x00;x00;x00;x00;x00;x00;x00;x00;x00;x00;x00;x00;x00;x00;x00;x00;x00;x00;x00;x00;x00;x00;x00;x00;x00;x00;x00;x40;x00;x00;x00;x00;x00;x00;xf0;x3f;x00;x00;x00;x00;x00;x00;x00;x00;x00;x00;x00;x00;x00;x00;x00;x00;x00;x00;x00;x00;x00;x00;x00;x00;x0a;x24;x45;x6e;x64;x45;x6e;x74;x69;x74;x69;x65;x73;x0a;x24;x4e;x6f;x64;x65;x73;x0a;x06;x00;x00;x00;x00;x00;x00;x00;x06;x00;x00;x00;x00;x00;x00;x00;x01;x00;x00;x00;x00;x00;x00;x00;x06;x00;x00;x00;x00;x00;x00;x00;x00;x00;x00;x00;x01;x00;x00;x00;x00;x00;x00;x00;x00;x00;x00;x00;x00;x00;x00;x00;x00;x00;x00;x00;x02;x00;x00;x00;x00;x00;x00;x00;x00;x00;x00;x00;x00;x00;x00;x00;x00;x00;x00;x00;x03;x00;x00;x00;x00;x00;x00;x00;x00;x00;x00;x00;x00;x00;x00;x00;x00;x00;x00;x00;x04;x00;x00;x00;x00;x00;x00;x00;x00;x00;x00;x00;x00;x00;x00;x00;x01;x00;x00;x00;x01;x00;x00;x00;x01;x00;x00;x00;x00;x00;x00;x00;x00;x00;x00;x00;x02;x00;x00;x00;x02;x00;x00;x00;x01;x00;x00;x00;x06;x00;x00;x00;x00;x00;x00;x00;x01;x00;x00;x00;x00;x00;x00;x00;x02;x00;x00;x00;x00;x00;x00;x00;x03;x00;x00;x00;x00;x00;x00;x00;x04;x00;x00;x00;x00;x00;x00;x00;x05;x00;x00;x00;x00;x00;x00;x00;x06;x00;x00;x00;x00;x00;x00;x00;x00;x00;x00;x00;x00;x00;x00;x00;x00;x00;x00;x00;x00;x00;x00;x00;x00;x00;x00;x00;x00;x00;x00;x00;x00;x00;x00;x00;x00;x00;x00;x00;x00;x00;x00;x00;x00;x00;x00;x00;x00;x00;x00;x00;x00;x00;xf0;x3f;x00;x00;x00;x00;x00;x00;x00;x00;x00;x00;x00;x00;x00;x00;x00;x00;x00;x00;x00;x00;x00;x00;x00;x00;x00;x00;x00;x00;x00;x00;x00;x00;x00;x00;x00;x00;x00;x00;xf0;x3f;x00;x00;x00;x00;x00;x00;xf0;x3f;x00;x00;x00;x00;x00;x00;x00;x00;x00;x00;x00;x00;x00;x00;x00;x00;x00;x00;x00;x00;x00;x00;x00;x00;x00;x00;x00;x00;x00;x00;x00;x00;x00;x00;x00;x00;x00;x00;xf0;x3f;x00;x00;x00;x00;x00;x00;x00;x00;x00;x00;x00;x00;x00;x00;x00;x00;x00;x00;x00;x00;x00;x00;x00;x00;x00;x00;x00;x00;x00;x00;x00;x40;x00;x00;x00;x00;x00;x00;x00;x00;x00;x00;x00;x00;x00;x00;x00;x00;x00;x00;x00;x00;x00;x00;x00;x00;x00;x00;x00;x00;x00;x00;x00;x00;x00;x00;x00;x00;x00;x00;x00;x40;x00;x00;x00;x00;x00;x00;xf0;x3f;x00;x00;x00;x00;x00;x00;x00;x00;x00;x00;x00;x00;x00;x00;x00;x00;x00;x00;x00;x00;x00;x00;x00;x00;x0a;x24;x45;x6e;x64;x4e;x6f;x64;x65;x73;x0a;x24;x45;x6c;x65;x6d;x65;x6e;x74;x73;x0a;x01;x00;x00;x00;x00;x00;x00;x00;x02;x00;x00;x00;x00;x00;x00;x00;x01;x00;x00;x00;x00;x00;x00;x00;x02;x00;x00;x00;x00;x00;x00;x00;x02;x00;x00;x00;x02;x00;x00;x00;x03;x00;x00;x00;x02;x00;x00;x00;x00;x00;x00;x00;x01;x00;x00;x00;x00;x00;x00;x00;x01;x00;x00;x00;x00;x00;x00;x00;x02;x00;x00;x00;x00;x00;x00;x00;x03;x00;x00;x00;x00;x00;x00;x00;x04;x00;x00;x00;x00;x00;x00;x00;x02;x00;x00;x00;x00;x00;x00;x00;x02;x00;x00;x00;x00;x00;x00;x00;x05;x00;x00;x00;x00;x00;x00;x00;x06;x00;x00;x00;x00;x00;x00;x00;x03;x00;x00;x00;x00;x00;x00;x00;x0a;x24;x45;x6e;x64;x45;x6c;x65;x6d;x65;x6e;x74;x73;x0a].

Definition c_debug := {| ndebug := false; nanospline := true; mem := 1000000 |}.

(** What the sample files describe: six nodes, two quads. *)
Definition tags_of (o : outcome MshSpec) : option (list Z * list Z * Z) :=
  match o with
  | Ok s => Some (List.concat (map nb_tags (n_blocks (nodes s))),
                  List.concat (map eb_data (e_blocks (elements s))),
                  zlen (node_data s))
  | _ => None
  end.
Definition expected := Some ([1; 2; 3; 4; 5; 6], [1; 1; 2; 3; 4; 2; 2; 5; 6; 3], 1).

Example sample_41_ascii : tags_of (load_msh c_debug f_test_41_ascii) = expected.
Proof. vm_compute. reflexivity. Qed.
Example sample_22_ascii : tags_of (load_msh c_debug f_test_22_ascii) = expected.
Proof. vm_compute. reflexivity. Qed.
Example sample_22_bin : tags_of (load_msh c_debug f_test_22_bin) = expected.
Proof. vm_compute. reflexivity. Qed.
