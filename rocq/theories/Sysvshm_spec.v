(* The life of a segment that a process creates: c are its bytes, ps the addresses it is attached at. *)
From Verif Require Import Base Sysvshm_model.

Definition set_byte (c : Z -> Z) (i v : Z) : Z -> Z := fun j => if j =? i then v else c j.
Definition the_name (pid key : Z) : name := if key =? 0 then Priv pid else Key key.
(* where the kernel can put n bytes *)
Definition unused (w : world) (a n : Z) : Prop := 0 < a /\ a + n < 2 ^ 64 /\ forall x, a <= x < a + n -> space w x = None.
Definition pages (n : Z) : Z := 4096 * ((n + 4095) / 4096).
Inductive life (fd size : Z) : world -> (Z -> Z) -> list Z -> Prop :=
| life_get w0 w pid key flg : Z.testbit flg 9 = true -> find (names w0) (the_name pid key) = None ->
    (forall x o i b, space w0 x = Some (o, i, b) -> o < objects w0) ->
    shmget w0 pid key size flg fd = (w, inl fd) -> life fd size w (fun _ => 0) []
| life_attach w c ps flg a w' p : life fd size w c ps -> Z.testbit flg 12 = false -> unused w a (pages (size + 8)) ->
    shmat w fd flg a = Ok (w', inl p) -> life fd size w' c (p :: ps)
| life_store w c ps p i v w' : life fd size w c ps -> In p ps -> 0 <= i < size -> store w (p + i) v = Ok w' ->
    life fd size w' (set_byte c i v) ps
| life_detach w c ps p w' : life fd size w c ps -> In p ps -> shmdt w p = Ok (w', inl 0) ->
    life fd size w' c (filter (fun q => negb (q =? p)) ps).
