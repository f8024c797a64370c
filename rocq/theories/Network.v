(** Model of the networks: transformer.py:107-523, transformer_conv.py and
    transformer_conv_large.py (the same text but for StateNet) and
    transformer_conv_ordered.py:107-508, over the real numbers.

    Tensors have a shape and entries; every operation checks shapes as PyTorch does and
    raises RuntimeError where PyTorch would.  Weights are arbitrary.  A network also holds
    the factors its dropout layers apply in the forward pass in question (see [dropout]).
    float32 rounding is not modelled, and neither are devices, gradients and
    initialisation. *)
From Coq Require Import ZArith List Bool Reals String.
From Verif Require Import Base Constants Tensor Encoder EncoderSum.
Import ListNotations.
Open Scope R_scope.

Record tensor := MkT { dims : list nat; at_ : list nat -> R }.

Definition sum_n (n : nat) (f : nat -> R) : R := fold_right (fun k x => f k + x) 0 (seq 0 n).
Definition guard (b : bool) : res unit := if b then Ok tt else Err RuntimeError.
Fixpoint dims_eqb (a b : list nat) : bool :=
  match a, b with [], [] => true | x :: a, y :: b => Nat.eqb x y && dims_eqb a b | _, _ => false end.
Definition product (l : list nat) : nat := fold_right Nat.mul 1%nat l.

(** ** Operations *)

(** Elementwise operations *)
Definition pointwise (f : R -> R) (x : tensor) : tensor := MkT (dims x) (fun i => f (at_ x i)).
Definition relu : tensor -> tensor := pointwise (fun v => Rmax v 0).

(** [x + y] with broadcasting is used with equal shapes only; other shapes are an error
    here. *)
Definition plus (x y : tensor) : res tensor :=
  _ <- guard (dims_eqb (dims x) (dims y)) ;; Ok (MkT (dims x) (fun i => at_ x i + at_ y i)).

(** nn.Linear(nin, nout): the last dimension must be [nin] *)
Record linear := MkLinear { l_weight : nat -> nat -> R; l_bias : nat -> R }.
Definition Linear (nin nout : nat) (p : linear) (x : tensor) : res tensor :=
  _ <- guard (negb (Nat.eqb (List.length (dims x)) 0) && Nat.eqb (last (dims x) 0%nat) nin) ;;
  Ok (MkT (removelast (dims x) ++ [nout])
       (fun i => l_bias p (last i 0%nat) + sum_n nin (fun e => at_ x (removelast i ++ [e]) * l_weight p (last i 0%nat) e))).

(** nn.LayerNorm(n): over the last dimension, eps = 1e-5 *)
Record norm := MkNorm { n_scale : nat -> R; n_shift : nat -> R }.
Definition LayerNorm (n : nat) (p : norm) (x : tensor) : res tensor :=
  _ <- guard (negb (Nat.eqb (List.length (dims x)) 0) && Nat.eqb (last (dims x) 0%nat) n) ;;
  Ok (MkT (dims x) (fun i =>
    let row e := at_ x (removelast i ++ [e]) in
    let mean := sum_n n row / INR n in
    let var := sum_n n (fun e => (row e - mean) * (row e - mean)) / INR n in
    (at_ x i - mean) / sqrt (var + 1 / 100000) * n_scale p (last i 0%nat) + n_shift p (last i 0%nat))).

(** Convolutions with kernel size 3 and padding 1; entries outside are 0 *)
Definition padded (n : nat) (f : nat -> R) (k : nat) (off : nat) : R :=
  if Nat.leb 1 (k + off) && Nat.leb (k + off) n then f (k + off - 1)%nat else 0.
Record conv1 := MkConv1 { c1_weight : nat -> nat -> nat -> R; c1_bias : nat -> R }.
Definition Conv1d (cin cout : nat) (p : conv1) (x : tensor) : res tensor :=
  match dims x with
  | [b; c; l] =>
      _ <- guard (Nat.eqb c cin) ;;
      Ok (MkT [b; cout; l] (fun i => match i with
        | [n; o; k] => c1_bias p o + sum_n cin (fun q => sum_n 3 (fun u => padded l (fun t => at_ x [n; q; t]) k u * c1_weight p o q u))
        | _ => 0 end))
  | _ => Err RuntimeError
  end.
Record conv2 := MkConv2 { c2_weight : nat -> nat -> nat -> nat -> R; c2_bias : nat -> R }.
Definition Conv2d (cin cout : nat) (p : conv2) (x : tensor) : res tensor :=
  match dims x with
  | [b; c; h; w] =>
      _ <- guard (Nat.eqb c cin) ;;
      Ok (MkT [b; cout; h; w] (fun i => match i with
        | [n; o; k; m] => c2_bias p o + sum_n cin (fun q => sum_n 3 (fun u => sum_n 3 (fun v =>
             padded h (fun s => padded w (fun t => at_ x [n; q; s; t]) m v) k u * c2_weight p o q u v)))
        | _ => 0 end))
  | _ => Err RuntimeError
  end.

(** [x.view(x.size(0), -1)]: row-major; with no sample the size of -1 is ambiguous *)
Fixpoint unflatten (ds : list nat) (j : nat) : list nat :=
  match ds with [] => [] | _ :: r => (j / product r)%nat :: unflatten r (j mod product r)%nat end.
Definition flatten (x : tensor) : res tensor :=
  match dims x with
  | [] => Err IndexError
  | b :: r => _ <- guard (negb (Nat.eqb b 0)) ;;
      Ok (MkT [b; product r] (fun i => match i with [n; j] => at_ x (n :: unflatten r j) | _ => 0 end))
  end.

(** [torch.cat([...], dim=-1)] (and [dim=1] for matrices): the other dimensions agree *)
Definition cat2 (x y : tensor) : res tensor :=
  _ <- guard (negb (Nat.eqb (List.length (dims x)) 0) && dims_eqb (removelast (dims x)) (removelast (dims y)) && Nat.eqb (List.length (dims x)) (List.length (dims y))) ;;
  Ok (MkT (removelast (dims x) ++ [(last (dims x) 0 + last (dims y) 0)%nat])
    (fun i => if Nat.ltb (last i 0%nat) (last (dims x) 0%nat) then at_ x i
              else at_ y (removelast i ++ [(last i 0 - last (dims x) 0)%nat]))).
Fixpoint cat_from (x : tensor) (l : list tensor) : res tensor :=
  match l with [] => Ok x | y :: r => z <- cat2 x y ;; cat_from z r end.
Definition cat (l : list tensor) : res tensor := match l with [] => Err RuntimeError | x :: r => cat_from x r end.
(** for matrices, where dim=1 is the last one *)
Definition cat_rows (l : list tensor) : res tensor :=
  _ <- guard (forallb (fun x => Nat.eqb (List.length (dims x)) 2) l) ;; cat l.

(** [unsqueeze(1)], [squeeze(1)], [transpose(1, 2)] *)
Definition unsqueeze1 (x : tensor) : res tensor :=
  match dims x with
  | b :: r => Ok (MkT (b :: 1%nat :: r) (fun i => match i with n :: _ :: t => at_ x (n :: t) | _ => 0 end))
  | [] => Err IndexError
  end.
Definition squeeze1 (x : tensor) : res tensor :=
  match dims x with
  | b :: 1%nat :: r => Ok (MkT (b :: r) (fun i => match i with n :: t => at_ x (n :: 0%nat :: t) | _ => 0 end))
  | _ :: _ :: _ => Ok x
  | _ => Err IndexError
  end.
Definition transpose12 (x : tensor) : res tensor :=
  match dims x with
  | b :: m :: n :: r => Ok (MkT (b :: n :: m :: r) (fun i => match i with a :: j :: k :: t => at_ x (a :: k :: j :: t) | _ => 0 end))
  | _ => Err IndexError
  end.
(** torch.bmm *)
Definition bmm (x y : tensor) : res tensor :=
  match dims x, dims y with
  | [b; n; m], [b'; m'; k] =>
      _ <- guard (Nat.eqb b b' && Nat.eqb m m') ;;
      Ok (MkT [b; n; k] (fun i => match i with [a; r; c] => sum_n m (fun e => at_ x [a; r; e] * at_ y [a; e; c]) | _ => 0 end))
  | _, _ => Err RuntimeError
  end.
(** F.softmax(x, dim=-1) *)
Definition softmax (x : tensor) : res tensor :=
  _ <- guard (negb (Nat.eqb (List.length (dims x)) 0)) ;;
  Ok (MkT (dims x) (fun i => exp (at_ x i) / sum_n (last (dims x) 0%nat) (fun e => exp (at_ x (removelast i ++ [e]))))).

(** nn.Dropout: entry [i] is multiplied by [m i].  In evaluation mode all factors are 1, in
    training mode each is 0 or 1 / (1 - p), drawn anew for every pass; here they are
    arbitrary. *)
Definition dropout (m : list nat -> R) (x : tensor) : tensor := MkT (dims x) (fun i => at_ x i * m i).

(** ** Layers *)
Definition EMBD : nat := 64.
Definition N_HEADS : nat := 8.

(** transformer.py:473-508 *)
Record head := MkHead { h_key : linear; h_query : linear; h_value : linear; h_drop : list nat -> R }.
Definition Head (size : nat) (h : head) (k v q : tensor) : res tensor :=
  k <- Linear EMBD size (h_key h) k ;;
  q <- Linear EMBD size (h_query h) q ;;
  v <- Linear EMBD size (h_value h) v ;;
  kt <- transpose12 k ;;
  wei <- bmm q kt ;;
  let wei := pointwise (fun x => x / sqrt (INR (last (dims k) 0%nat))) wei in
  wei <- softmax wei ;;
  bmm (dropout (h_drop h) wei) v.

(** transformer.py:458-470; [m_heads] gives the weights of the eight heads *)
Record attention := MkAttention { m_heads : nat -> head; m_proj : linear; m_drop : list nat -> R }.
Definition MultiHeadAttention (num size : nat) (m : attention) (k v q : tensor) : res tensor :=
  outs <- mapM (fun h => Head size (m_heads m h) k v q) (seq 0 num) ;;
  out <- cat outs ;;
  out <- Linear (size * num) EMBD (m_proj m) out ;;
  Ok (dropout (m_drop m) out).

(** transformer.py:511-522.  [gelu] is nn.GELU, any function here. *)
Record feedforward := MkFF { f_up : linear; f_down : linear; f_drop : list nat -> R }.
Definition FeedForward (gelu : R -> R) (f : feedforward) (x : tensor) : res tensor :=
  x <- Linear EMBD (4 * EMBD) (f_up f) x ;;
  x <- Linear (4 * EMBD) EMBD (f_down f) (pointwise gelu x) ;;
  Ok (dropout (f_drop f) x).

(** transformer.py:340-354 and transformer_conv_ordered.py:279-291 *)
Record enc_block := MkEnc { e_self : attention; e_ff : feedforward; e_ln1 : norm; e_ln2 : norm }.
Definition EncoderBlock (gelu : R -> R) (b : enc_block) (x : tensor) : res tensor :=
  n <- LayerNorm EMBD (e_ln1 b) x ;;
  s <- MultiHeadAttention N_HEADS (EMBD / N_HEADS) (e_self b) n n n ;;
  x <- plus x s ;;
  n <- LayerNorm EMBD (e_ln2 b) x ;;
  f <- FeedForward gelu (e_ff b) n ;;
  plus x f.

(** transformer.py:357-389 (the self-attention looks at the encoder too) and
    transformer_conv_ordered.py:361-384 *)
Record dec_block := MkDec { d_self : attention; d_cross : attention; d_ff : feedforward; d_ln1 : norm; d_ln2 : norm; d_ln3 : norm }.
Definition DecoderBlock (a : agent) (gelu : R -> R) (b : dec_block) (enc x : tensor) : res tensor :=
  match a with
  | ORDERED =>
      n <- LayerNorm EMBD (d_ln1 b) x ;;
      s <- MultiHeadAttention N_HEADS (EMBD / N_HEADS) (d_self b) n n n ;;
      x <- plus x s ;;
      n <- LayerNorm EMBD (d_ln2 b) x ;;
      c <- MultiHeadAttention N_HEADS (EMBD / N_HEADS) (d_cross b) enc enc n ;;
      x <- plus x c ;;
      n <- LayerNorm EMBD (d_ln3 b) x ;;
      f <- FeedForward gelu (d_ff b) n ;;
      plus x f
  | _ =>
      n <- LayerNorm EMBD (d_ln1 b) x ;; n <- unsqueeze1 n ;;
      s <- MultiHeadAttention N_HEADS (EMBD / N_HEADS) (d_self b) enc enc n ;; s <- squeeze1 s ;;
      x <- plus x s ;;
      n <- LayerNorm EMBD (d_ln2 b) x ;; n <- unsqueeze1 n ;;
      c <- MultiHeadAttention N_HEADS (EMBD / N_HEADS) (d_cross b) enc enc n ;; c <- squeeze1 c ;;
      x <- plus x c ;;
      n <- LayerNorm EMBD (d_ln3 b) x ;;
      f <- FeedForward gelu (d_ff b) n ;;
      plus x f
  end.

(** transformer.py:390-437; transformer_conv.py:390-445 (also transformer_conv_large.py);
    transformer_conv_ordered.py:387-459 *)
Record state_net := MkState { s_conv_a : conv1; s_conv_b : conv1; s_conv2_a : conv2; s_conv2_b : conv2; s_fc1 : linear; s_main1 : linear; s_main2 : linear }.
Definition StateNet (a : agent) (s : state_net) (x1 x2 x3 : tensor) : res tensor :=
  c <- (match a with
        | TF => c <- Conv1d 3 8 (s_conv_a s) x1 ;; c <- Conv1d 8 16 (s_conv_b s) (relu c) ;;
                _ <- passert (Nat.ltb 0 (hd 0%nat (dims c))) ;; Ok c
        | CONV | LARGE => c <- Conv2d 3 8 (s_conv2_a s) x1 ;; Conv2d 8 8 (s_conv2_b s) (relu c)
        | ORDERED => c <- Conv2d 6 8 (s_conv2_a s) x1 ;; Conv2d 8 16 (s_conv2_b s) (relu c)
        end) ;;
  flat <- flatten (relu c) ;;
  raw <- flatten x1 ;;
  comb <- cat_rows [flat; raw] ;;
  p <- Linear (match a with TF => 16 * 37 + 3 * 37 | CONV | LARGE => 8 * 37 * 4 + 3 * 37 * 4 | ORDERED => 16 * 37 * 4 + 6 * 37 * 4 end) 64 (s_fc1 s) comb ;;
  x2f <- flatten x2 ;;
  all <- cat_rows [relu p; x2f; x3] ;;
  x <- Linear (64 + 7 * 4 + 4) EMBD (s_main1 s) all ;;
  x <- Linear EMBD EMBD (s_main2 s) (relu x) ;;
  Ok (relu x).

(** ** Batches *)
Inductive which := During | Discard | Post.
Definition width (h : which) : nat := match h with During => 71 | Discard => 37 | Post => 154 end.

(** torch.cat of the samples' tensors: all have the same shape as the first *)
Definition nth2 {A} (d : A) (l : list (list A)) (i j : nat) : A := nth j (nth i l []) d.
Definition shape1 (a : agent) (f : features) : list nat :=
  let x := f_x1 f in
  match a with
  | TF => [List.length x; List.length (hd [] x)]
  | _ => [List.length x; List.length (hd [] x); List.length (hd [] (hd [] x))]
  end.
(** rows, and the counts in them, have one length each *)
Definition even1 (a : agent) (f : features) : bool :=
  forallb (fun r => Nat.eqb (List.length r) (List.length (hd [] (f_x1 f))) &&
     forallb (fun p => Nat.eqb (List.length p) (match a with TF => 1 | _ => List.length (hd [] (hd [] (f_x1 f))) end)) r) (f_x1 f).
Definition entry1 (a : agent) (f : features) (i : list nat) : R :=
  match a, i with
  | TF, [c; k] => IZR (nth 0 (nth2 [] (f_x1 f) c k) 0%Z)
  | _, [c; k; p] => IZR (nth p (nth2 [] (f_x1 f) c k) 0%Z)
  | _, _ => 0
  end.
Definition stack1 (a : agent) (l : list sample) : res tensor :=
  match l with
  | [] => Err RuntimeError
  | r0 :: _ =>
      _ <- guard (forallb (fun r => even1 a (r_state r) && dims_eqb (shape1 a (r_state r)) (shape1 a (r_state r0))) l) ;;
      Ok (MkT (List.length l :: shape1 a (r_state r0)) (fun i => match i with n :: t => match nth_error l n with Some r => entry1 a (r_state r) t | None => 0 end | [] => 0 end))
  end.
Definition stack2 (l : list sample) : res tensor :=
  match l with
  | [] => Err RuntimeError
  | r0 :: _ =>
      let d := List.length (hd [] (f_x2 (r_state r0))) in
      _ <- guard (forallb (fun r => Nat.eqb (List.length (f_x2 (r_state r))) (List.length (f_x2 (r_state r0))) && forallb (fun v => Nat.eqb (List.length v) d) (f_x2 (r_state r))) l) ;;
      Ok (MkT [List.length l; List.length (f_x2 (r_state r0)); d] (fun i => match i with [n; j; k] => match nth_error l n with Some r => IZR (nth2 0%Z (f_x2 (r_state r)) j k) | None => 0 end | _ => 0 end))
  end.
Definition stack3 (l : list sample) : res tensor :=
  match l with
  | [] => Err RuntimeError
  | r0 :: _ =>
      _ <- guard (forallb (fun r => Nat.eqb (List.length (f_x3 (r_state r))) (List.length (f_x3 (r_state r0)))) l) ;;
      Ok (MkT [List.length l; List.length (f_x3 (r_state r0))] (fun i => match i with [n; k] => match nth_error l n with Some r => IZR (nth k (f_x3 (r_state r)) 0%Z) | None => 0 end | _ => 0 end))
  end.

(** The embedding of all token rows: shape (B, T, 64).  The position table has 150 rows,
    so T is at most 150. *)
Definition embed_batch (a : agent) (w : weights) (l : list sample) : res tensor :=
  match l with
  | [] => Err RuntimeError
  | r0 :: _ =>
      let T := List.length (r_tokens r0) in
      _ <- guard (Nat.leb T 150 && forallb (fun r => Nat.eqb (List.length (r_tokens r)) T) l) ;;
      xs <- mapM (fun r => encode_row a (r_player r) (r_tokens r)) l ;;
      Ok (MkT [List.length l; T; EMBD] (fun i => match i with [n; t; d] => row_sum w (nth t (nth n xs []) []) d | _ => 0 end))
  end.

(** ** The whole network *)
Record network := MkNet {
  k_embed : weights; k_enc : list enc_block; k_state : state_net; k_dec : list dec_block; k_ln : norm; k_head : which -> linear; k_gelu : R -> R }.

(** transformer.py:183-267 *)
Definition encoder_forward (a : agent) (net : network) (l : list sample) : res tensor :=
  x <- embed_batch a (k_embed net) l ;;
  foldM (fun x b => EncoderBlock (k_gelu net) b x) x (k_enc net).

(** transformer.py:300-337 and transformer_conv_ordered.py:320-358: everything up to the
    masked logits.  [-1e9] is the value of masked logits. *)
Definition MASKED : R := - 1000000000.
Definition mask_at (l : list sample) (n k : nat) : Z := match nth_error l n with Some r => nth k (r_mask r) 0%Z | None => 0%Z end.
Definition decoder_forward (a : agent) (net : network) (h : which) (l : list sample) (enc : tensor) : res tensor :=
  _ <- passert (forallb (fun r => forallb (fun m => (m =? 0)%Z || (m =? 1)%Z) (r_mask r)) l) ;;
  _ <- passert (forallb (fun r => existsb (fun m => negb (m =? 0)%Z) (r_mask r)) l) ;;
  x1 <- stack1 a l ;; x2 <- stack2 l ;; x3 <- stack3 l ;;
  x <- StateNet a (k_state net) x1 x2 x3 ;;
  logits <- (match a with
    | ORDERED =>
        x <- unsqueeze1 x ;;
        x <- foldM (fun x b => DecoderBlock a (k_gelu net) b enc x) x (k_dec net) ;;
        x <- LayerNorm EMBD (k_ln net) x ;;
        y <- Linear EMBD (width h) (k_head net h) x ;;
        squeeze1 y
    | _ =>
        x <- foldM (fun x b => DecoderBlock a (k_gelu net) b enc x) x (k_dec net) ;;
        x <- LayerNorm EMBD (k_ln net) x ;;
        Linear EMBD (width h) (k_head net h) x
    end) ;;
  _ <- passert (match dims logits with [b; w] => Nat.eqb b (List.length l) && forallb (fun r => Nat.eqb (List.length (r_mask r)) w) l | _ => false end) ;;
  Ok (MkT (dims logits) (fun i => match i with [n; k] => if (mask_at l n k =? 0)%Z then MASKED else at_ logits i | _ => 0 end)).

(** F.cross_entropy(logits, y): a label outside the row raises IndexError *)
Definition cross_entropy (logits : tensor) (ys : list Z) : res R :=
  match dims logits with
  | [b; w] =>
      _ <- guard (Nat.eqb b (List.length ys) && negb (Nat.eqb b 0)) ;;
      _ <- (if forallb (fun y => (0 <=? y)%Z && (y <? Z.of_nat w)%Z) ys then Ok tt else Err IndexError) ;;
      Ok (sum_n b (fun n => ln (sum_n w (fun k => exp (at_ logits [n; k]))) - at_ logits [n; Z.to_nat (nth n ys 0%Z)]) / INR b)
  | _ => Err RuntimeError
  end.

(** transformer.py:49-105: one head of TransformerModel.forward, for a non-empty batch *)
Definition forward (a : agent) (net : network) (h : which) (l : list sample) : res (tensor * R) :=
  enc <- encoder_forward a net l ;;
  logits <- decoder_forward a net h l enc ;;
  loss <- cross_entropy logits (map r_label l) ;;
  Ok (logits, loss).
