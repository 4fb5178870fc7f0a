(** Model of distdiff --json (/repo/javatools/distdiff.py). *)
From Verif Require Import Base Pack_Model ConstPool_Model Classdiff_Model Jardiff_Model Change_Model Distdiff_Model Dtext_Model.
From Verif Require Zip_Model.

(** cli_dist_diff without --report and with the JSON format, distdiff.py:558-585,
    report.py:328-343 (the values given to the encoder), and the exit status *)
Definition distdiff_json fmt reprs ffmt text order up unzip (lname rname : str) (left right : Zip_Model.node) (o : options) (shallow : bool) : res (json * Z) :=
  c <- check (dist_change_at fmt reprs ffmt text order up unzip lname rname left right shallow) ;; j <- json_of o c ;; s <- exit_status o c ;; Ok (j, s).
