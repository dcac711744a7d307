(* C61: the title and the instrument names of RMT modules.  Nothing else is in this file. *)
From Coq Require Import String.
From Verif Require Import Base BaseFacts InfoModel NativeModel NativeSpec SapSpec WindowSpec NamesModel NamesSpec NamesProofs SapWitness NamesWitness.

(* the offset is the one just after the title; nothing outside the module is read *)
Theorem C61_names :
  forall fuel self name f inf, named name rmt_ext -> bytes f -> len (i_songPos self) = 32 -> api_load fuel self (Some name) f = Ok inf ->
  exists r, api_instrument_names_offset inf f = Ok r /\ names_at f r.
Proof. exact names_ok. Qed.
Print Assumptions C61_names.
Example C61_names_ex : texts_of (tune_with tune_texts) = Ok (str "My  tune"%string, 51) /\ text_start (tune_with tune_texts) = 42 /\
  slice (tune_with tune_texts) 51 55 = str "bass"%string /\ texts_of (tune_with (str "untitled"%string ++ [0])) = Ok (str "untitled"%string, -1).
Proof. repeat split; vm_compute; reflexivity. Qed.

(* the title is the text there, with blanks for the characters that ASAP does not show *)
Theorem C61_title :
  forall fuel self name f inf, named name rmt_ext -> bytes f -> len (i_songPos self) = 32 -> api_load fuel self (Some name) f = Ok inf ->
  exists e, title_end f e /\ i_title inf = map shown (slice f (text_start f) e).
Proof. exact title_ok. Qed.
Print Assumptions C61_title.
Example C61_title_ex : title_end (tune_with tune_texts) 50 /\ map shown (slice (tune_with tune_texts) 42 50) = str "My  tune"%string.
Proof.
  split; [|vm_compute; reflexivity]. split; [vm_compute; split; discriminate|]. split; [|right; right; vm_compute; reflexivity].
  change (text_start (tune_with tune_texts)) with 42. intros k K. assert (X : k = 42 \/ k = 43 \/ k = 44 \/ k = 45 \/ k = 46 \/ k = 47 \/ k = 48 \/ k = 49) by lia.
  repeat (destruct X as [X|X]; [rewrite X; vm_compute; split; [reflexivity|discriminate]|]). rewrite X; vm_compute; split; [reflexivity|discriminate].
Qed.

(* so, for titles of at most 127 characters, the names follow the title and its zero *)
Theorem C61_follow :
  forall fuel self name f inf r, named name rmt_ext -> bytes f -> len (i_songPos self) = 32 -> api_load fuel self (Some name) f = Ok inf ->
  api_instrument_names_offset inf f = Ok r -> r <> -1 -> r - 1 <= text_start f + 127 ->
  i_title inf = map shown (slice f (text_start f) (r - 1)) /\ at_ f (r - 1) = 0.
Proof. exact names_follow. Qed.
Print Assumptions C61_follow.

(* modules of other types have no names, whatever the array *)
Theorem C61_other : forall inf f, i_type inf <> RMT -> api_instrument_names_offset inf f = Ok (-1).
Proof. intros inf f H. unfold api_instrument_names_offset. destruct (i_type inf); try reflexivity. now destruct H. Qed.
Print Assumptions C61_other.

(* an array that is not the loaded module can be read outside, even before its start *)
Theorem C61_foreign_refuted :
  exists inf f, i_type inf = RMT /\ bytes f /\ 48 <= len f /\ api_instrument_names_offset inf f = UB UbRead.
Proof.
  exists (set_type RMT blank_info), ([255; 255; 0; 1; 0; 0] ++ repeat 1 42). split; [reflexivity|]. split; [apply bytesb_spec; reflexivity|]. split; [vm_compute; discriminate|vm_compute; reflexivity].
Qed.
Print Assumptions C61_foreign_refuted.
