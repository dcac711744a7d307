(* asapconv converting modules *)
From Verif Require Import Base InfoModel WriterModel WriteModel OptionModel.

(* asapconv.c:170-185 apply_tags; [Fail] is fatal_error.  arg_name is forgotten after the first
   file, which is not modelled: this is one input file. *)
Definition tagged (set : info -> list Z -> bool * info) (v : option (list Z)) (inf : info) : outcome info :=
  match v with
  | None => Ok inf
  | Some t => let '(b, inf) := set inf t in if b : bool then Ok inf else Fail
  end.
Definition apply_tags (o : options) (inf : info) : outcome info :=
  inf <- tagged api_set_author (o_author o) inf ;;
  inf <- tagged api_set_title (o_name o) inf ;;
  tagged api_set_date (o_date o) inf.

(* asapconv.c:532-539; whether ASAPInfo_SetMusicAddress succeeds is not looked at *)
Definition conv_info (o : options) (inf : info) : outcome info :=
  inf <- apply_tags o inf ;;
  inf <- (if 0 <=? o_ntsc o then if api_can_set_ntsc inf then api_set_ntsc inf (negb (o_ntsc o =? 0)) else Fail else Ok inf) ;;
  Ok (if 0 <=? o_address o then snd (api_set_music_address inf (o_address o)) else inf).

(* asapconv.c:543-546 *)
Definition conv_song (xex : bool) (o : options) (song : Z) (inf : info) : outcome info :=
  let inf := if xex then snd (api_set_default_song inf song) else inf in
  if 0 <=? o_duration o then '(_, inf) <- api_set_duration inf song (o_duration o) ;; Ok inf else Ok inf.

(* asapconv.c:532-551 for one output file: the bytes that are written to it.  [output] is what
   happens to be in the array of ASAPInfo_MAX_MODULE_LENGTH bytes. *)
Definition conv_module (xex : bool) (o : options) (target : list Z) (song : Z) (inf : info) (module output : list Z) : outcome (list Z) :=
  inf <- conv_info o inf ;;
  inf <- conv_song xex o song inf ;;
  '(b, w) <- api_write target inf module (o_tag o) (api_set_output output 0 65000) ;;
  if b : bool then Ok (firstn (Z.to_nat (w_off w)) (w_out w)) else Fail.
