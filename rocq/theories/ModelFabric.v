(** Accesses across a whole tree: requests that the host or a function sends, the memories of the host and of the endpoints, and the completions on their way back. *)
From Verif Require Import Base ModelUtils ModelTlp ModelAttrs ModelCapList ModelConfig ModelFunction ModelRegion ModelCompleter ModelRoute ModelTree ModelTreeUp.

(** A function sends through the port of its own device (core/device.py:88, 157-163; core/switch.py:53-63): its place in the tree [z], found by its number, which no other function has (C59_numbers) *)
Fixpoint locate (z : net) (i : pcie_id) : option (list nat) :=
  match z with
  | Net f _ l =>
    if id_eqb (f_id f) i then Some []
    else (fix go (k : nat) (l : list net) : option (list nat) :=
      match l with [] => None | c :: r => match locate c i with Some q => Some (k :: q) | None => go (S k) r end end) 0%nat l
  end.
(** Where [t] ends that the host (0:0.0; core/rc.py:203-206) or the function with number [s] sends.  [Passes]: at the host; [Stops]: at a function *)
Definition travel (z : net) (s : pcie_id) (t : tlp) : res passage :=
  if id_eqb s id0 then o <- reach z t ;; Ok (match o with Some (g, t) => Stops g t | None => Drops end)
  else match locate z s with Some p => from_function z p t | None => Err PyException end.

(** The memory of the host, and those of the BARs of every endpoint (core/endpoint.py:176-198) *)
Record world := mkW { w_host : host_mem; w_bar : pcie_id -> Z -> region }.
(** The host's settings and the payload sizes of the endpoints *)
Record settings := mkSet { s_rc : rc_cfg; s_mps : pcie_id -> Z }.
Definition put_bar (i : pcie_id) (j : Z) (r : region) (w : world) : world :=
  mkW (w_host w) (fun i' j' => if id_eqb i' i && (j' =? j) then r else w_bar w i' j').
(** core/endpoint.py:240, 290, 322, 377 *)
Definition bar_of (w : world) (g : fnc) (io : bool) (t : tlp) : res (option (Z * (region * Z))) :=
  b <- match_bar 6 (address t) io (f_attr g) ;; Ok (match b with Some (j, off) => Some (j, (w_bar w (f_id g) j, off)) | None => None end).
Definition put_of (g : fnc) (b : option (Z * (region * Z))) (r : option region) (w : world) : world :=
  match b, r with Some (j, _), Some r => put_bar (f_id g) j r w | _, _ => w end.
(** What happens where [t] ends: core/rc.py:304-561 at the host, core/endpoint.py:236-426 at a function, which is a [MemoryEndpoint].  A TLP that ends nowhere changes nothing; that the requester
    gets a completion with status UR then (C29, C30) is left out. *)
Definition serve (k : settings) (w : world) (v : passage) : res (world * list tlp) :=
  match v with
  | Passes t =>
    ty <- fmt_type t ;;
    match ty with
    | MEM_READ | MEM_READ_64 => Ok (w, rc_mem_read (s_rc k) (w_host w) t)
    | MEM_WRITE | MEM_WRITE_64 => Ok (mkW (rc_mem_write (w_host w) t) (w_bar w), [])
    | IO_READ => cs <- rc_io_read (w_host w) t ;; Ok (w, cs)
    | IO_WRITE => '(cs, h) <- rc_io_write (w_host w) t ;; Ok (mkW h (w_bar w), cs)
    | _ => Err PyException
    end
  | Stops g t =>
    ty <- fmt_type t ;;
    match ty with
    | MEM_READ | MEM_READ_64 => b <- bar_of w g false t ;; Ok (w, ep_mem_read (f_id g) (s_mps k (f_id g)) (option_map snd b) t)
    | MEM_WRITE | MEM_WRITE_64 => b <- bar_of w g false t ;; r <- ep_mem_write (option_map snd b) t ;; Ok (put_of g b r w, [])
    | IO_READ => b <- bar_of w g true t ;; cs <- ep_io_read (f_id g) (option_map snd b) t ;; Ok (w, cs)
    | IO_WRITE => b <- bar_of w g true t ;; '(cs, r) <- ep_io_write (f_id g) (option_map snd b) t ;; Ok (put_of g b r w, cs)
    | _ => Err PyException
    end
  | Drops => Ok (w, [])
  end.
(** The completions [cs], which [d] sends: those that end at [s] *)
Fixpoint back (z : net) (d s : pcie_id) (cs : list tlp) : res (list tlp) :=
  match cs with
  | [] => Ok []
  | c :: r =>
    v <- travel z d c ;;
    l <- back z d s r ;;
    Ok (match v with
        | Passes c => if id_eqb s id0 then c :: l else l
        | Stops g c => if id_eqb (f_id g) s then c :: l else l
        | Drops => l
        end)
  end.
(** One request [t] that [s] sends, until all its completions are back *)
Definition exchange (z : net) (k : settings) (w : world) (s : pcie_id) (t : tlp) : res (world * list tlp) :=
  v <- travel z s t ;;
  '(w, cs) <- serve k w v ;;
  cs <- back z (match v with Stops g _ => f_id g | _ => id0 end) s cs ;;
  Ok (w, cs).
(** What arrives for a request (ModelRegion.v [incoming]) *)
Definition arriving (z : net) (k : settings) (w : world) (s : pcie_id) (t : tlp) : list tlp :=
  match exchange z k w s t with Ok (_, cs) => cs | Err _ => [] end.
(** Requests one after the other, with tags *)
Fixpoint exchanges (z : net) (k : settings) (w : world) (s : pcie_id) (tg : nat -> Z) (i : nat) (ts : list tlp) : res (world * list (list tlp)) :=
  match ts with
  | [] => Ok (w, [])
  | t :: r =>
    '(w, cs) <- exchange z k w s (set_tag (tg i) t) ;;
    '(w, css) <- exchanges z k w s tg (S i) r ;;
    Ok (w, cs :: css)
  end.
