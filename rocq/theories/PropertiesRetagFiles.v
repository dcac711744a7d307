(* Property theorem about how many SAP files asapconv writes *)
From Coq Require Import String.
From Verif Require Import Base InfoModel ConvModel ConvSpec RetagFilesProofs.

(* ---- C65 ---- *)
(* where a file per song is not allowed, as for SAP files, one file is written, for the song asked for or else for the default one *)
Theorem C65_one_file :
  forall j buffer l, proper j -> 0 < len buffer -> j_allow j = false -> outputs j buffer = Ok l ->
  exists name song, l = [(name, song)] /\ (j_arg_song j < 0 /\ song = j_default j \/ 0 <= j_arg_song j < j_songs j /\ song = j_arg_song j).
Proof. exact one_file. Qed.
Print Assumptions C65_one_file.
Example C65_one_file_ex :
  outputs (mkJob (str "%a.sap"%string) (str "tune.sap"%string) (str "Me"%string) [] [] None 3 1 (-1) false (fun _ => true)) (repeat 7 10) = Ok [(str "Me.sap"%string, 1)] /\
  outputs (mkJob (str "%s.sap"%string) (str "tune.sap"%string) (str "Me"%string) [] [] None 3 1 (-1) false (fun _ => true)) (repeat 7 10) = Fail.
Proof. split; reflexivity. Qed.
