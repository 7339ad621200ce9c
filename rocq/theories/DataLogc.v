(* The encoded ALEXA reference colours in /repo/src/colorchecker.rs, in the order of NAMES (13-38). *)
From Coq Require Import List QArith.
Import ListNotations.
Open Scope Q_scope.

(* colorchecker.rs 233-258 *)
Definition data_ALEXA_WIDE_GAMUT_ENCODED : list (Q * Q * Q) := [
  (0.363518976106640467893527, 0.313447392487750664535895, 0.288471725763217889948464);
  (0.485687878962457519893547, 0.441516373072294299184648, 0.418314720070651957506414);
  (0.376316147251576360588388, 0.410277129818338137656752, 0.447536203022192657918765);
  (0.342677108259875851103970, 0.359497390375041359078523, 0.294408650707382257838418);
  (0.421727094572193927923820, 0.426463640649455189013395, 0.472448090176936452699863);
  (0.427995012090144455463303, 0.493998840580603726380104, 0.478030691703853483076614);
  (0.499116785697253872999823, 0.395881535291465025405699, 0.290242040284021007856552);
  (0.339859794842281182081223, 0.374780478633934988064169, 0.458031800795150489946650);
  (0.467741947843008654128738, 0.341867308943827774569968, 0.352443650832155230823162);
  (0.323218859926489743283895, 0.286779887276093214953931, 0.353960358526902774123357);
  (0.464493777989795852967347, 0.479865972203110946470161, 0.351711633150909974698806);
  (0.514809384293810623489662, 0.448151837406924602458247, 0.315294918392686751573706);
  (0.277883613098220794146442, 0.321219988283784396720932, 0.425132406871337242826314);
  (0.357541379797264025075521, 0.425911361276844258050289, 0.331934557277378472495144);
  (0.437867701505738782241650, 0.262719558237701933389729, 0.258473872578539043409762);
  (0.532393161558567751256987, 0.494896342870777328215581, 0.338766491161558658262720);
  (0.466053337044106286146672, 0.366247166746927199643125, 0.435297009357390740635907);
  (0.318370779638559420199329, 0.429446459374782318896280, 0.461531944988240572236293);
  (0.560798190790710804343178, 0.560348278359034446260978, 0.556805106407804339951895);
  (0.513716246119833686023526, 0.514597061213167394910784, 0.513781639781872190297918);
  (0.461887936494457806979597, 0.462830221320669976670104, 0.462486639207018379593706);
  (0.396141830250974880112125, 0.397637896456272454948078, 0.397478800359552353338444);
  (0.319893565711201921519802, 0.321888976266371973355973, 0.322508998224383780506486);
  (0.228003355520057876537621, 0.227910013123151955483081, 0.229034789877255673395950)
].
