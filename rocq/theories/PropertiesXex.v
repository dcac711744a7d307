(* Properties of the title screen of executables: C18.
   Statements only; the proofs are in XexProofs.v, XexLayout.v and SaveWitness.v. *)
From Coq Require Import String.
From Verif Require Import Base InfoModel InfoSpec WriterModel WriteModel SapSpec SapWitness XexSpec XexLayout SaveWitness.

(* ---- C18 ---- *)
(* the title: whole lines of a 256-byte buffer, every character in its place, short words not split *)
Theorem C18_title :
  forall inf, meta_text (i_title inf) ->
  exists d pos, xex_title inf = Ok d /\ whole_lines d /\ laid_out (shown_title inf) d pos /\ visible d = visible (shown_title inf).
Proof. exact title_screen. Qed.
Print Assumptions C18_title.

(* the author: the same without the places, unless there are several authors in more than 104 characters *)
Theorem C18_author :
  forall inf, meta_text (i_author inf) -> ~ several_authors (i_author inf) \/ len (i_author inf) <= 104 ->
  exists d, xex_author inf = Ok d /\ whole_lines d
    /\ visible d = visible (match i_author inf with [] => [] | a => str "by " ++ a end).
Proof. exact author_screen. Qed.
Print Assumptions C18_author.

(* the date, the channels and the duration *)
Theorem C18_other :
  forall inf, meta_text (i_date inf) -> 0 <= i_defsong inf < len (i_durations inf) ->
  at_ (i_durations inf) (i_defsong inf) <= int_max - 999 ->
  exists d pos, laid_out (i_date inf) d pos /\ len d mod 32 = 19 /\ visible d = visible (i_date inf)
    /\ xex_other inf = Ok (d ++ shown_channels (i_channels inf) ++ shown_time (at_ (i_durations inf) (i_defsong inf)))
    /\ whole_lines (d ++ shown_channels (i_channels inf) ++ shown_time (at_ (i_durations inf) (i_defsong inf))).
Proof. exact other_screen. Qed.
Print Assumptions C18_other.

Example C18_example :
  xex_title (with_texts "A B" "The quick brown fox jumps over the lazy dog" "1984") = Ok (str "The quick brown fox jumps over  the lazy dog                    ")
  /\ xex_author (with_texts "Ann Other & Bob & Charles The Third" "T" "1984") = Ok (str "by Ann Other & Bob               & Charles The Third            ")
  /\ xex_other (with_texts "A B" "T" "1984") = Ok (str "1984                STEREO 01:02").
Proof. exact small_screen. Qed.

(* an author of 105 characters that the setter accepts overruns the buffer when the file is saved *)
Theorem C18_author_refuted :
  len wide_authors = 105 /\ meta_text wide_authors /\ exists inf inf',
  loaded_as "x.sap" sap_witness = Ok inf /\ api_set_author inf wide_authors = (true, inf')
  /\ api_write (str "y.xex") inf' sap_witness true (mkW (repeat 7 2000) 0 2000) = UB UbWrite.
Proof. exact (conj eq_refl (conj wide_meta wide_authors_ub)). Qed.
Print Assumptions C18_author_refuted.

(* a duration within a second of the greatest integer overflows when it is rounded up *)
Theorem C18_duration_refuted : exists inf inf',
  loaded_as "x.sap" sap_witness = Ok inf /\ api_set_duration inf 1 2147482649 = Ok (true, inf')
  /\ api_write (str "y.xex") inf' sap_witness true (mkW (repeat 7 2000) 0 2000) = UB UbOverflow.
Proof. exact long_duration_ub. Qed.
Print Assumptions C18_duration_refuted.

(* every duration above the bound of C18_other does *)
Theorem C18_other_bound :
  forall inf, meta_text (i_date inf) -> 0 <= i_defsong inf < len (i_durations inf) ->
  int_max - 999 < at_ (i_durations inf) (i_defsong inf) -> xex_other inf = UB UbOverflow.
Proof. exact other_overflow. Qed.
Print Assumptions C18_other_bound.
