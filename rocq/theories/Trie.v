(** Model of /repo/uttut/pipeline/ops/utils/trie.py *)

From Verif Require Export Py.

(** trie.py:1-25 [TrieNode]: children in insertion order, and [_word]. *)
Inductive trie : Type := Node (children : list (Z * trie)) (word : option str).

(** trie.py:30-31 *)
Definition trie_empty : trie := Node [] None.

(** Truth value of [node.word]: [None] and [''] are false. *)
Definition truthy (w : option str) : bool :=
  match w with Some (_ :: _) => true | _ => false end.

(** trie.py:46-52 [insert] (with the setter 20-25: a second word at the same node is an
    AttributeError).  [path] is what is left of [word]. *)
Fixpoint trie_insert_at (path : str) (word : str) (t : trie) : res trie :=
  match t with
  | Node ch w =>
      match path with
      | [] => if truthy w then Err AttributeErr else Ok (Node ch (Some word))
      | c :: path =>
          let child := match dict_get ch c with Some t' => t' | None => trie_empty end in
          child' <- trie_insert_at path word child ;;
          Ok (Node (dict_set ch c child') w)
      end
  end.

Definition trie_insert (t : trie) (word : str) : res trie := trie_insert_at word word t.

(** custom_word_tokenizer.py:40-42, add_whitespace_around_word_n_zhchar.py:49-51: a new
    trie with all the words. *)
Fixpoint trie_insert_all (t : trie) (words : list str) : res trie :=
  match words with
  | [] => Ok t
  | w :: words => t' <- trie_insert t w ;; trie_insert_all t' words
  end.

(** trie.py:36-44 [exactly_search] *)
Fixpoint exactly_search (t : trie) (word : str) : bool :=
  match t with
  | Node ch w =>
      match word with
      | [] => truthy w
      | c :: word => match dict_get ch c with
                     | None => false
                     | Some t' => exactly_search t' word
                     end
      end
  end.

(** trie.py:54-65 [match_prefix]; [longest] is the variable [longest_word]. *)
Fixpoint match_prefix_from (t : trie) (word : str) (shortest : bool) (longest : option str)
  : option str :=
  match t with
  | Node ch _ =>
      match word with
      | [] => longest
      | c :: word =>
          match dict_get ch c with
          | None => longest
          | Some (Node _ w as t') =>
              if truthy w
              then if shortest then w else match_prefix_from t' word shortest w
              else match_prefix_from t' word shortest longest
          end
      end
  end.

Definition match_prefix (t : trie) (word : str) (shortest : bool) : option str :=
  match_prefix_from t word shortest None.
