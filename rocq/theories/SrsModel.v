(** The options of a raster and its spatial reference (src/data_raster.hpp). Proof-free. *)
From Coq Require Import ZArith Ascii String List Bool.
From Verif Require Import Base RasterModel StrModel MapModel ArrayModel.
Import ListNotations.
Open Scope Z_scope.
Open Scope outcome_scope.

(** data_raster.hpp:2687-2693 GetOption; the message for a missing key is left out. *)
Definition GetOption (options : smap bytes) (key : bytes) : bytes :=
  match lookup options key with None => [] | Some v => v end.
(** data_raster.hpp:2682-2684 GetSrsString; the key is data_raster.hpp:100. *)
Definition GetSrsString (options : smap bytes) : bytes := GetOption options (str "SRS"%string).

(** A string object and its c_str(): the characters and a null character in storage of the
    object (data_raster.hpp:2678). *)
Definition c_str (h : @heap ascii) (s : bytes) : @heap ascii * pointer :=
  (h ++ [Some (map CVal s ++ [CVal zero])], Some (List.length h, 0)).
(** data_raster.hpp:2677-2679 GetSrs: the string is a temporary; its storage is gone when the
    function returns. *)
Definition GetSrs (h : @heap ascii) (options : smap bytes) : outcome (@heap ascii * pointer) :=
  let hp := c_str h (GetSrsString options) in
  let* h' := free (fst hp) (snd hp) in
  Ok (h', snd hp).
(** Reading a text through a const char*, as string(const char* ) does at
    data_raster.hpp:2678 for the caller, up to the null character; at most [fuel]
    characters. *)
Fixpoint read_text (fuel : nat) (h : @heap ascii) (p : pointer) (i : Z) : outcome bytes :=
  match fuel with
  | O => UB
  | S fuel => let* c := load_val h p i in
              if Ascii.eqb c zero then Ok [] else let* s := read_text fuel h p (i + 1) in Ok (c :: s)
  end.
