(** * The project's own examples, run on the model: [/repo/pandalone/xleash/_filter.py] *)
From Coq Require Import String.
From Verif Require Import PyBase Json Redim_Model.
Open Scope Z_scope.

(** _filter.py:67-76 *)
Example doc_classify_rect_shape :
  classify_rect_shape (1, 1) None = 0%nat /\ classify_rect_shape (2, 2) (Some (2, 2)) = 1%nat /\ classify_rect_shape (2, 2) (Some (2, 20)) = 2%nat
  /\ classify_rect_shape (2, 2) (Some (20, 2)) = 3%nat /\ classify_rect_shape (2, 2) (Some (20, 20)) = 4%nat.
Proof. repeat split; vm_compute; reflexivity. Qed.

(** _filter.py:136-156 *)
Example doc_redim :
  redim (JList [(JNum 1); (JNum 2)]) (Some (DInt 2)) = Ok (JList [(JList [(JNum 1); (JNum 2)])])
  /\ redim (JList [(JList [(JNum 1); (JNum 2)])]) (Some (DInt 1)) = Ok (JList [(JNum 1); (JNum 2)])
  /\ redim (JList []) (Some (DInt 2)) = Ok (JList [(JList [])])
  /\ redim (JList [(JList [(JNum 3)])]) (Some (DInt 0)) = Ok (JNum 3)
  /\ redim (JList [(JList [(JNum 11); (JNum 22)])]) (Some (DInt 0)) = Ok (JList [(JNum 11); (JNum 22)])
  /\ redim (JList [(JList [(JList [(JNum 11)]); (JList [(JNum 22)])])]) None = Ok (JList [(JList [(JList [(JNum 11)]); (JList [(JNum 22)])])]).
Proof. repeat split; vm_compute; reflexivity. Qed.

(** /repo/tests/test_xleash.py:1403-1469; integers stand for the numbers with decimals *)
Example test_redim :
  redim (JList [(JNum 1)]) (Some (DInt 1)) = Ok (JList [(JNum 1)])
  /\ redim (JList [(JNum 1)]) (Some (DInt 2)) = Ok (JList [(JList [(JNum 1)])])
  /\ redim (JList [(JNum 13)]) (Some (DInt 3)) = Ok (JList [(JList [(JList [(JNum 13)])])])
  /\ redim (JList [(JNum 1); (JNum 2)]) (Some (DInt 1)) = Ok (JList [(JNum 1); (JNum 2)])
  /\ redim (JList [(JNum 1); (JNum 2)]) (Some (DInt 2)) = Ok (JList [(JList [(JNum 1); (JNum 2)])])
  /\ redim (JList [(JNum 1); (JNum 2)]) (Some (DInt 3)) = Ok (JList [(JList [(JList [(JNum 1); (JNum 2)])])])
  /\ redim (JList [(JList [(JNum 1); (JNum 2)])]) (Some (DInt 1)) = Ok (JList [(JNum 1); (JNum 2)])
  /\ redim (JList [(JList [(JList [(JNum 1); (JNum 2)])])]) (Some (DInt 2)) = Ok (JList [(JList [(JNum 1); (JNum 2)])])
  /\ redim (JList [(JList [(JList [(JNum 1); (JNum 2)])])]) (Some (DInt 1)) = Ok (JList [(JNum 1); (JNum 2)])
  /\ redim (JList [(JList [(JList [(JNum 1)]); (JList [(JNum 2)])])]) (Some (DInt 2)) = Ok (JList [(JList [(JNum 1)]); (JList [(JNum 2)])])
  /\ redim (JList [(JList [(JList [(JList [(JNum 1)])]); (JList [(JList [(JNum 2)])])])]) (Some (DInt 2)) = Ok (JList [(JList [(JNum 1)]); (JList [(JNum 2)])])
  /\ redim (JList [(JList [(JList [(JList [(JNum 1)])]); (JList [(JList [(JNum 2)])])])]) (Some (DInt 3)) = Ok (JList [(JList [(JList [(JNum 1)])]); (JList [(JList [(JNum 2)])])])
  /\ redim (JList [(JList [(JList [(JNum 1)]); (JList [(JNum 2)])])]) (Some (DInt 1)) = Ok (JList [(JNum 1); (JNum 2)])
  /\ redim (JList [(JList [(JList [(JNum 1)]); (JList [(JNum 2)])])]) (Some (DInt 0)) = Ok (JList [(JNum 1); (JNum 2)])
  /\ redim (JList [JNull]) (Some (DInt 0)) = Ok JNull
  /\ redim (JList [(JList [(JStr (lit "str"))])]) (Some (DInt 0)) = Ok (JStr (lit "str"))
  /\ redim (JList [(JList [(JList [(JNum 3)])])]) (Some (DInt 0)) = Ok (JNum 3)
  /\ redim (JStr (lit "str")) (Some (DInt 0)) = Ok (JStr (lit "str"))
  /\ redim JNull (Some (DInt 0)) = Ok JNull
  /\ redim (JNum 5) (Some (DInt 0)) = Ok (JNum 5)
  /\ redim (JList []) (Some (DInt 3)) = Ok (JList [(JList [(JList [])])])
  /\ redim (JList [(JList [])]) (Some (DInt 3)) = Ok (JList [(JList [(JList [])])])
  /\ redim (JList [(JList [])]) (Some (DInt 2)) = Ok (JList [(JList [])])
  /\ redim (JList []) (Some (DInt 2)) = Ok (JList [(JList [])])
  /\ redim (JList []) (Some (DInt 1)) = Ok (JList [])
  /\ redim (JList [(JList [])]) (Some (DInt 1)) = Ok (JList [])
  /\ redim (JList [(JList []); (JList [])]) (Some (DInt 1)) = Ok (JList [])
  /\ redim (JList [(JList [(JNum 1); (JNum 2)]); (JList [(JNum 3); (JNum 4)])]) (Some (DInt 1)) = Ok (JList [(JNum 1); (JNum 2); (JNum 3); (JNum 4)])
  /\ redim (JList [(JList [(JList [(JNum 1); (JNum 1)])]); (JList [(JList [(JNum 2); (JNum 2)])])]) (Some (DInt 1)) = Ok (JList [(JNum 1); (JNum 1); (JNum 2); (JNum 2)])
  /\ redim (JList [(JList []); (JList [])]) (Some (DInt 0)) = Ok (JList [])
  /\ redim (JList [(JList [(JNum 1); (JNum 2)]); (JList [(JNum 3); (JNum 4)])]) (Some (DInt 0)) = Ok (JList [(JNum 1); (JNum 2); (JNum 3); (JNum 4)])
  /\ redim (JList [(JList [(JList [(JNum 1); (JNum 1)])]); (JList [(JList [(JNum 2); (JNum 2)])])]) (Some (DInt 0)) = Ok (JList [(JNum 1); (JNum 1); (JNum 2); (JNum 2)])
  /\ redim (JList [(JNum 1); (JNum 2); (JNum 3)]) (Some (DInt 0)) = Ok (JList [(JNum 1); (JNum 2); (JNum 3)])
  /\ redim (JList [(JList [(JNum 1); (JNum 2)]); (JList [(JNum 3); (JNum 4)])]) (Some (DInt 0)) = Ok (JList [(JNum 1); (JNum 2); (JNum 3); (JNum 4)])
  /\ redim (JList [(JList [(JNum 1); (JNum 2)])]) (Some (DInt 0)) = Ok (JList [(JNum 1); (JNum 2)])
  /\ redim (JList [(JNum 1); (JNum 2)]) (Some (DInt 0)) = Ok (JList [(JNum 1); (JNum 2)])
  /\ redim (JList []) (Some (DInt 0)) = Ok (JList [])
  /\ redim (JList [(JList [])]) (Some (DInt 0)) = Ok (JList []).
Proof. repeat split; vm_compute; reflexivity. Qed.
