(* The content of a value that may be compared with a ByteData *)
From Verif Require Import Py MShared.

Definition content_of (v : pyvalue) : option bytes :=
  match v with VBytes b => Some b | VByteData d => Some (bd_bytes d) | VOther => None end.
Definition is_bytedata (v : pyvalue) : Prop := match v with VByteData _ => True | _ => False end.
