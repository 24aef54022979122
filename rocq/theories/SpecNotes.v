(** The calculations of src/notes.txt: the reduction for any modulus of the form
    k * 2^m + 1, and the sequences of bounds listed there. *)

From Coq Require Import ZArith List.
From Verif Require Import Spec.
Import ListNotations.
Open Scope Z_scope.

(** src/notes.txt 1-6: write x = a * 2^m + r with 0 <= r < 2^m; then red(x) is k r - a. *)
Definition redkm (k m x : Z) : Z := k * (x mod 2 ^ m) - x / 2 ^ m.

(** A line of one of the listed sequences: the bound after one more round of updates
    ("B7 = .."), or after a reduction of all the coefficients ("Reduction to .."). *)
Inductive line := Bound (b : Z) | Reduced (b : Z).

(** Each line is related to the line before by [U] (update) or [R] (reduction). *)
Fixpoint follows (U R : Z -> Z -> Prop) (b : Z) (l : list line) : Prop :=
  match l with
  | [] => True
  | Bound c :: l' => U b c /\ follows U R c l'
  | Reduced c :: l' => R b c /\ follows U R c l'
  end.
Definition sequence (U R : Z -> Z -> Prop) (l : list line) : Prop :=
  match l with Bound b :: l' => follows U R b l' | _ => False end.

(** All values between -b and b, after a Cooley-Tukey update with a constant between
    [low] and [high], are between -c and c. *)
Definition ct_update (low high b c : Z) : Prop :=
  forall x y w, - b <= x <= b -> - b <= y <= b -> low <= w <= high ->
    - c <= x + ln_red (w * y) <= c /\ - c <= x - ln_red (w * y) <= c.
(** The same for a Gentleman-Sande update. *)
Definition gs_update (low high b c : Z) : Prop :=
  forall x y w, - b <= x <= b -> - b <= y <= b -> low <= w <= high ->
    - c <= x + y <= c /\ - c <= ln_red ((x - y) * w) <= c.
(** The same for a reduction. *)
Definition reduction (b c : Z) : Prop := forall x, - b <= x <= b -> - c <= ln_red x <= c.

(** [c] is the least number with the property. *)
Definition least (P : Z -> Z -> Prop) (b c : Z) : Prop := P b c /\ forall d, P b d -> c <= d.

(** The bounds listed before the first reduction. *)
Fixpoint rounds (l : list line) : list Z :=
  match l with Bound b :: l' => b :: rounds l' | _ => [] end.

(** src/notes.txt 81-101 *)
Definition notes_ct_simple : list line := [
  Bound 12288; Bound 61438; Bound 258038; Bound 1044438; Bound 4190038; Bound 16772438;
  Bound 67102038; Bound 268420438; Bound 1073694038; Bound 4294788438; Bound 17179166038;
  Bound 68716676438; Bound 274866718038; Bound 1099466884438; Bound 4397867550038;
  Bound 17591470212438; Bound 70365880862038; Bound 281463523460438; Bound 1125854093854038;
  Bound 4503416375428438].
(** src/notes.txt 109-130 *)
Definition notes_ct_reduced : list line := [
  Bound 12288; Bound 61438; Bound 258038; Bound 1044438; Bound 4190038; Bound 16772438;
  Bound 67102038; Bound 268420438; Bound 1073694038; Reduced 274418; Bound 1109958; Bound 4452118;
  Bound 17820758; Bound 71295318; Bound 285193558; Bound 1140786518; Reduced 290798; Bound 1175478;
  Bound 4714198; Bound 18869078; Bound 75488598; Bound 301966678].
(** src/notes.txt 157-177 *)
Definition notes_gs_simple : list line := [
  Bound 12288; Bound 86014; Bound 528370; Bound 3182506; Bound 19107322; Bound 114656218;
  Bound 687949594; Bound 4127709850; Bound 24766271386; Bound 148597640602; Bound 891585855898;
  Bound 5349515147674; Bound 32097090898330; Bound 192582545402266; Bound 1155495272425882;
  Bound 6932971634567578; Bound 41597829807417754; Bound 249586978844518810;
  Bound 1497521873067125146; Bound 8985131238402763162].
(** src/notes.txt 183-205 *)
Definition notes_gs_reduced : list line := [
  Bound 12288; Bound 86014; Bound 528370; Bound 3182506; Bound 19107322; Bound 114656218;
  Bound 687949594; Reduced 180242; Bound 1093738; Bound 6574714; Bound 39460570; Bound 236775706;
  Bound 1420666522; Reduced 359128; Bound 2167054; Bound 13014610; Bound 78099946; Bound 468611962;
  Reduced 126693; Bound 772444; Bound 4646950; Bound 27893986; Bound 167376202].
(** src/notes.txt 289-310 *)
Definition notes_ct_tighter : list line := [
  Bound 12288; Bound 61435; Bound 258012; Bound 1044272; Bound 4189120; Bound 16767744;
  Bound 67079169; Bound 268316676; Bound 1073266704; Reduced 274314; Bound 1109476; Bound 4449920;
  Bound 17810880; Bound 71251458; Bound 285005832; Bound 1140023328; Reduced 290612; Bound 1174664;
  Bound 4710656; Bound 18853760; Bound 75422724; Bound 301690896].
(** src/notes.txt 314-336 *)
Definition notes_gs_tighter : list line := [
  Bound 12288; Bound 86008; Bound 528293; Bound 3181787; Bound 19101455; Bound 114611690;
  Bound 687670140; Reduced 180174; Bound 1093243; Bound 6571211; Bound 39436344; Bound 236618064;
  Bound 1419708384; Reduced 358894; Bound 2165475; Bound 13004079; Bound 78030411; Bound 468182466;
  Reduced 126588; Bound 771753; Bound 4642428; Bound 27864588; Bound 167187528].
(** src/notes.txt 366-387 *)
Definition notes_ct_option1 : list line := [
  Bound 12288; Bound 61432; Bound 257978; Bound 1043928; Bound 4186097; Bound 16755610;
  Bound 67027260; Bound 268109040; Bound 1072436160; Reduced 274111; Bound 1107843; Bound 4442370;
  Bound 17778817; Bound 71118480; Bound 284473920; Bound 1137895680; Reduced 290092; Bound 1172003;
  Bound 4698368; Bound 18803840; Bound 75220370; Bound 300881480].
(** src/notes.txt 392-414 *)
Definition notes_gs_option1 : list line := [
  Bound 12288; Bound 86005; Bound 528211; Bound 3180259; Bound 19090580; Bound 114543480;
  Bound 687260880; Reduced 180074; Bound 1091745; Bound 6561254; Bound 39373381; Bound 236240286;
  Bound 1417441716; Reduced 358341; Bound 2161806; Bound 12980153; Bound 77886443; Bound 467318658;
  Reduced 126377; Bound 769856; Bound 4629897; Bound 27785624; Bound 166713744].
(** src/notes.txt 422-442 *)
Definition notes_ct_option2 : list line := [
  Bound 12288; Bound 42997; Bound 119738; Bound 311299; Bound 790447; Bound 1987966; Bound 4980673;
  Bound 12462562; Bound 31164924; Bound 77918453; Bound 194802277; Bound 487011837;
  Bound 1217535737; Reduced 309535; Bound 785616; Bound 1975626; Bound 4949887; Bound 12385411;
  Bound 30971056; Bound 77433783; Bound 193590602].
(** src/notes.txt 447-468 *)
Definition notes_gs_option2 : list line := [
  Bound 12288; Bound 49138; Bound 159595; Bound 490509; Bound 1483533; Bound 4460701;
  Bound 13391734; Bound 40181345; Bound 120550178; Bound 361656677; Bound 1084976174;
  Reduced 277172; Bound 843357; Bound 2541250; Bound 7632968; Bound 22907241; Bound 68727866;
  Bound 206189741; Bound 618575366; Bound 1855732241; Reduced 465345; Bound 1407302].
(** src/notes.txt 497-519 *)
Definition notes_ct_option1_psi : list line := [
  Bound 36864; Bound 159730; Bound 651128; Bound 2616234; Bound 10474535; Bound 41904677;
  Bound 167618708; Bound 670474832; Reduced 175976; Bound 715694; Bound 2873755; Bound 11504664;
  Bound 46025136; Bound 184100544; Bound 736402176; Reduced 192071; Bound 780082; Bound 3131047;
  Bound 12533167; Bound 50140118; Bound 200560472; Bound 802241888; Reduced 208145].
(** src/notes.txt 524-547 *)
Definition notes_gs_option1_psi : list line := [
  Bound 36864; Bound 233449; Bound 1412731; Bound 8485651; Bound 50917324; Bound 305503944;
  Bound 1833023664; Reduced 459801; Bound 2770487; Bound 16631116; Bound 99786712; Bound 598720272;
  Reduced 158457; Bound 962325; Bound 5784359; Bound 34710771; Bound 208264626; Bound 1249587756;
  Reduced 317361; Bound 1915826; Bound 11504438; Bound 69028362; Bound 414170172; Reduced 113401].
(** src/notes.txt 562-582 *)
Definition notes_ct_option2_psi : list line := [
  Bound 21499; Bound 65996; Bound 177113; Bound 454751; Bound 1148904; Bound 2884192;
  Bound 7221144; Bound 18063074; Bound 45164706; Bound 112917908; Bound 282300913; Bound 705758427;
  Bound 1764402212; Reduced 443048; Bound 1119550; Bound 2810134; Bound 7036512; Bound 17600603;
  Bound 44009354; Bound 110029528; Bound 275079963].
(** src/notes.txt 587-608 *)
Definition notes_gs_option2_psi : list line := [
  Bound 21499; Bound 76741; Bound 242116; Bound 737933; Bound 2224937; Bound 6684719;
  Bound 20063032; Bound 60195239; Bound 180591860; Bound 541781723; Bound 1625351312;
  Reduced 409100; Bound 1239146; Bound 3728795; Bound 11195616; Bound 33592994; Bound 100785125;
  Bound 302361518; Bound 907090697; Reduced 233743; Bound 713003; Bound 2150044].
