(* C62: the descriptions of file name extensions.  Nothing else is in this file. *)
From Coq Require Import String.
From Verif Require Import Base BaseFacts InfoModel InfoSpec WindowSpec WriteModel WriterModel DescribeModel DescribeSpec DescribeProofs.

(* an extension has the description of the format, in upper and in lower case *)
Theorem C62_description :
  forall ext, Forall (fun c => 33 <= c <= 122) ext -> api_ext_description ext = described (map lower ext).
Proof. exact description_ok. Qed.
Print Assumptions C62_description.
Example C62_description_ex : api_ext_description (str "Tm8"%string) = Some (str "Theta Music Composer 1.x"%string) /\ api_ext_description (str "FC"%string) = Some (str "Future Composer"%string) /\
  api_ext_description (str "f"%string) = None /\ api_ext_description (str "wav"%string) = None.
Proof. repeat split; vm_compute; reflexivity. Qed.

(* exactly the formats that can be loaded, and executables, have one *)
Theorem C62_described :
  forall ext, Forall (fun c => 33 <= c <= 122) ext -> (api_ext_description ext <> None <-> is_our_ext ext = true \/ map lower ext = xex_ext).
Proof.
  intros ext H. rewrite (description_ok ext H), described_iff, (InfoProofs.is_our_ext_spec ext H). cbn [In]. split; [intros [X|X]; [right; congruence|now left]|intros [X|X]; [now right|left; congruence]].
Qed.
Print Assumptions C62_described.

(* and every format in which a module can be saved *)
Theorem C62_saved :
  forall inf module exts e, api_get_save_exts inf module = Ok exts -> In e exts -> api_ext_description e <> None.
Proof. exact saved_described. Qed.
Print Assumptions C62_saved.

(* with other characters the letters are not told apart *)
Theorem C62_control_refuted :
  exists ext, api_ext_description ext <> None /\ described (map lower ext) = None.
Proof. exists [99; 109; 19]. split; [vm_compute; discriminate|vm_compute; reflexivity]. Qed.
Print Assumptions C62_control_refuted.
