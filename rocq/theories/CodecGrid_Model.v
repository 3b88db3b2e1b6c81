(** The metadata of an array as GridPaper stores it: the dictionary of
    dustgoggles/codex/codecs.py:141-146 through the JSON codec of MetaTagIndex
    (implements.py:525), and its use in codecs.py:154-161.  Definitions only.

    Simplifications: as in Codec_Model; names with bytes above 127 are taken as
    Latin-1 (Pad_Model has text as UTF-8 bytes). *)
From Verif Require Import Codec_Model.
From Verif Require Export Pad_Model.

(** codecs.py:141-146. *)
Definition array_metadata (itemsize : string -> nat) (md : ameta) : val :=
  VDict CDict
    [(KStr "name", VAtom (KStr (am_name md)));
     (KStr "dtype", VAtom (KStr (am_dtype md)));
     (KStr "shape", VTup (map (fun n => VAtom (KInt (Z.of_nat n))) (am_shape md)));
     (KStr "size", VAtom (KInt (Z.of_nat (nbytes itemsize (am_dtype md) (am_shape md)))))].
Definition array_encode (itemsize : string -> nat) (md : ameta) : res string :=
  json_encode (array_metadata itemsize md).

Definition item (d : dict val) (k : string) : res val :=
  match dget d (KStr k) with Some v => Ok v | None => Exc KeyError end.
Definition as_text (v : val) : res string := match v with VAtom (KStr s) => Ok s | _ => Exc TypeError end.
Definition as_dim (v : val) : res nat :=
  match v with VAtom (KInt z) => if (z <? 0)%Z then Exc ValueError else Ok (Z.to_nat z) | _ => Exc TypeError end.
Definition as_shape (v : val) : res (list nat) :=
  match v with VList l => mapM as_dim l | _ => Exc TypeError end.
(** codecs.py:154-161: json.loads, and the entries that are used. *)
Definition array_decode (b : string) : res ameta :=
  v <- json_decode b ;;
  match v with
  | VDict _ d =>
      n <- item d "name" ;; name <- as_text n ;;
      s <- item d "shape" ;; shape <- as_shape s ;;
      t <- item d "dtype" ;; dtype <- as_text t ;;
      Ok {| am_name := name; am_dtype := dtype; am_shape := shape |}
  | _ => Exc TypeError
  end.
