(** Generated by tools/gen_data.py from /repo/fluids/safety_valve.py: the literal tables, verbatim. *)
From Coq Require Import List QArith ZArith String.
Import ListNotations.
Local Open Scope Q_scope.

(** safety_valve.py:86-87 *)
Definition API526_A_sq_inch : list Q := [0.110; 0.196; 0.307; 0.503; 0.785; 1.287; 1.838; 2.853; 3.60; 4.34; 6.38; 11.05; 16.00; 26.00].
(** safety_valve.py:290-299 *)
Definition _KSH_Pa_7E : list Q := [204746.3593975254; 239220.14586336722; 377115.29172673443; 515010.4375901016; 652905.5834534689; 790800.7293168361; 928695.8751802032; 1066591.0210435705; 1204486.1669069377; 1342381.312770305; 1480276.4586336722; 1618171.6044970395; 1756066.7503604065; 1893961.8962237737; 2031857.042087141; 2169752.187950508; 2514490.0526089263; 2859227.9172673444; 3548703.64658418; 4238179.375901016; 5617130.834534689; 6996082.29316836; 8719771.616460452; 10443460.939752541; 12167150.263044631; 13890839.58633672; 17338218.232920904; 20785596.879505083].
(** safety_valve.py:302-305 *)
Definition _KSH_tempKs_7E : list Q := [422.03888888888889; 477.59444444444443; 533.14999999999998; 588.70555555555552; 644.26111111111106; 699.81666666666661; 755.37222222222226; 810.92777777777769; 866.48333333333335; 922.03888888888889].
(** safety_valve.py:307-334 *)
Definition _KSH_factors_7E := [[1; 0.98; 0.93; 0.88; 0.84; 0.8; 0.77; 0.74; 0.72; 0.7];
 [1; 0.98; 0.93; 0.88; 0.84; 0.8; 0.77; 0.74; 0.72; 0.7];
 [1; 0.99; 0.93; 0.88; 0.84; 0.81; 0.77; 0.74; 0.72; 0.7];
 [1; 0.99; 0.93; 0.88; 0.84; 0.81; 0.77; 0.75; 0.72; 0.7];
 [1; 0.99; 0.93; 0.88; 0.84; 0.81; 0.77; 0.75; 0.72; 0.7];
 [1; 0.99; 0.94; 0.89; 0.84; 0.81; 0.77; 0.75; 0.72; 0.7];
 [1; 0.99; 0.94; 0.89; 0.84; 0.81; 0.78; 0.75; 0.72; 0.7];
 [1; 0.99; 0.94; 0.89; 0.85; 0.81; 0.78; 0.75; 0.72; 0.7];
 [1; 0.99; 0.94; 0.89; 0.85; 0.81; 0.78; 0.75; 0.72; 0.7];
 [1; 0.99; 0.94; 0.89; 0.85; 0.81; 0.78; 0.75; 0.72; 0.7];
 [1; 0.99; 0.95; 0.89; 0.85; 0.81; 0.78; 0.75; 0.72; 0.7];
 [1; 0.99; 0.95; 0.89; 0.85; 0.81; 0.78; 0.75; 0.72; 0.7];
 [1; 1; 0.95; 0.9; 0.85; 0.81; 0.78; 0.75; 0.72; 0.7];
 [1; 1; 0.95; 0.9; 0.85; 0.81; 0.78; 0.75; 0.72; 0.7];
 [1; 1; 0.96; 0.9; 0.85; 0.81; 0.78; 0.75; 0.72; 0.7];
 [1; 1; 0.96; 0.9; 0.85; 0.81; 0.78; 0.75; 0.72; 0.7];
 [1; 1; 0.96; 0.9; 0.86; 0.82; 0.78; 0.75; 0.72; 0.7];
 [1; 1; 0.96; 0.91; 0.86; 0.82; 0.78; 0.75; 0.72; 0.7];
 [1; 1; 0.96; 0.92; 0.86; 0.82; 0.78; 0.75; 0.73; 0.7];
 [1; 1; 0.97; 0.92; 0.87; 0.82; 0.79; 0.75; 0.73; 0.7];
 [1; 1; 1; 0.95; 0.88; 0.83; 0.79; 0.76; 0.73; 0.7];
 [1; 1; 1; 0.96; 0.89; 0.84; 0.78; 0.76; 0.73; 0.71];
 [1; 1; 1; 0.97; 0.91; 0.85; 0.8; 0.77; 0.74; 0.71];
 [1; 1; 1; 1; 0.93; 0.86; 0.81; 0.77; 0.74; 0.71];
 [1; 1; 1; 1; 0.94; 0.86; 0.81; 0.77; 0.73; 0.7];
 [1; 1; 1; 1; 0.95; 0.86; 0.8; 0.76; 0.72; 0.69];
 [1; 1; 1; 1; 0.95; 0.85; 0.78; 0.73; 0.69; 0.66];
 [1; 1; 1; 1; 1; 0.82; 0.74; 0.69; 0.65; 0.62]].
(** safety_valve.py:336-351 *)
Definition _KSH_Pa_10E : list Q := [500000.0; 750000.0; 1000000.0; 1250000.0; 1500000.0; 1750000.0; 2000000.0; 2250000.0; 2500000.0; 2750000.0; 3000000.0; 3250000.0; 3500000.0; 3750000.0; 4000000.0; 4250000.0; 4500000.0; 4750000.0; 5000000.0; 5250000.0; 5500000.0; 5750000.0; 6000000.0; 6250000.0; 6500000.0; 6750000.0; 7000000.0; 7250000.0; 7500000.0; 7750000.0; 8000000.0; 8250000.0; 8500000.0; 8750000.0; 9000000.0; 9250000.0; 9500000.0; 9750000.0; 10000000.0; 10250000.0; 10500000.0; 10750000.0; 11000000.0; 11250000.0; 11500000.0; 11750000.0; 12000000.0; 12250000.0; 12500000.0; 12750000.0; 13000000.0; 13250000.0; 13500000.0; 14000000.0; 14250000.0; 14500000.0; 14750000.0; 15000000.0; 15250000.0; 15500000.0; 15750000.0; 16000000.0; 16250000.0; 16500000.0; 16750000.0; 17000000.0; 17250000.0; 17500000.0; 17750000.0; 18000000.0; 18250000.0; 18500000.0; 18750000.0; 19000000.0; 19250000.0; 19500000.0; 19750000.0; 20000000.0; 20250000.0; 20500000.0; 20750000.0; 21000000.0; 21250000.0; 21500000.0; 21750000.0; 22000000.0].
(** safety_valve.py:353-355 *)
Definition _KSH_K_10E : list Q := [478.15; 498.15; 523.15; 548.15; 573.15; 598.15; 623.15; 648.15; 673.15; 698.15; 723.15; 748.15; 773.15; 798.15; 823.15; 848.15; 873.15; 898.15].
(** safety_valve.py:357-442 *)
Definition _KSH_factors_10E := [[0.991; 0.968; 0.942; 0.919; 0.896; 0.876; 0.857; 0.839; 0.823; 0.807; 0.792; 0.778; 0.765; 0.752; 0.74; 0.728; 0.717; 0.706];
 [0.995; 0.972; 0.946; 0.922; 0.899; 0.878; 0.859; 0.841; 0.824; 0.808; 0.793; 0.779; 0.766; 0.753; 0.74; 0.729; 0.717; 0.707];
 [0.985; 0.973; 0.95; 0.925; 0.902; 0.88; 0.861; 0.843; 0.825; 0.809; 0.794; 0.78; 0.766; 0.753; 0.741; 0.729; 0.718; 0.707];
 [0.981; 0.976; 0.954; 0.928; 0.905; 0.883; 0.863; 0.844; 0.827; 0.81; 0.795; 0.781; 0.767; 0.754; 0.741; 0.729; 0.718; 0.707];
 [1; 1; 0.957; 0.932; 0.907; 0.885; 0.865; 0.846; 0.828; 0.812; 0.796; 0.782; 0.768; 0.755; 0.742; 0.73; 0.718; 0.708];
 [1; 1; 0.959; 0.935; 0.91; 0.887; 0.866; 0.847; 0.829; 0.813; 0.797; 0.782; 0.769; 0.756; 0.743; 0.731; 0.719; 0.708];
 [1; 1; 0.96; 0.939; 0.913; 0.889; 0.868; 0.849; 0.831; 0.814; 0.798; 0.784; 0.769; 0.756; 0.744; 0.731; 0.72; 0.708];
 [1; 1; 0.963; 0.943; 0.916; 0.892; 0.87; 0.85; 0.832; 0.815; 0.799; 0.785; 0.77; 0.757; 0.744; 0.732; 0.72; 0.709];
 [1; 1; 1; 0.946; 0.919; 0.894; 0.872; 0.852; 0.834; 0.816; 0.8; 0.785; 0.771; 0.757; 0.744; 0.732; 0.72; 0.71];
 [1; 1; 1; 0.948; 0.922; 0.897; 0.874; 0.854; 0.835; 0.817; 0.801; 0.786; 0.772; 0.758; 0.745; 0.733; 0.721; 0.71];
 [1; 1; 1; 0.949; 0.925; 0.899; 0.876; 0.855; 0.837; 0.819; 0.802; 0.787; 0.772; 0.759; 0.746; 0.733; 0.722; 0.71];
 [1; 1; 1; 0.951; 0.929; 0.902; 0.879; 0.857; 0.838; 0.82; 0.803; 0.788; 0.773; 0.759; 0.746; 0.734; 0.722; 0.711];
 [1; 1; 1; 0.953; 0.933; 0.905; 0.881; 0.859; 0.84; 0.822; 0.804; 0.789; 0.774; 0.76; 0.747; 0.734; 0.722; 0.711];
 [1; 1; 1; 0.956; 0.936; 0.908; 0.883; 0.861; 0.841; 0.823; 0.806; 0.79; 0.775; 0.761; 0.748; 0.735; 0.723; 0.711];
 [1; 1; 1; 0.959; 0.94; 0.91; 0.885; 0.863; 0.842; 0.824; 0.807; 0.791; 0.776; 0.762; 0.748; 0.735; 0.723; 0.712];
 [1; 1; 1; 0.961; 0.943; 0.913; 0.887; 0.864; 0.844; 0.825; 0.808; 0.792; 0.776; 0.762; 0.749; 0.736; 0.724; 0.713];
 [1; 1; 1; 1; 0.944; 0.917; 0.89; 0.866; 0.845; 0.826; 0.809; 0.793; 0.777; 0.763; 0.749; 0.737; 0.725; 0.713];
 [1; 1; 1; 1; 0.946; 0.919; 0.892; 0.868; 0.847; 0.828; 0.81; 0.793; 0.778; 0.764; 0.75; 0.737; 0.725; 0.713];
 [1; 1; 1; 1; 0.947; 0.922; 0.894; 0.87; 0.848; 0.829; 0.811; 0.794; 0.779; 0.765; 0.751; 0.738; 0.725; 0.714];
 [1; 1; 1; 1; 0.949; 0.926; 0.897; 0.872; 0.85; 0.83; 0.812; 0.795; 0.78; 0.765; 0.752; 0.738; 0.726; 0.714];
 [1; 1; 1; 1; 0.952; 0.93; 0.899; 0.874; 0.851; 0.831; 0.813; 0.797; 0.78; 0.766; 0.752; 0.739; 0.727; 0.714];
 [1; 1; 1; 1; 0.954; 0.933; 0.902; 0.876; 0.853; 0.833; 0.815; 0.798; 0.782; 0.767; 0.753; 0.739; 0.727; 0.715];
 [1; 1; 1; 1; 0.957; 0.937; 0.904; 0.878; 0.855; 0.834; 0.816; 0.798; 0.783; 0.768; 0.753; 0.74; 0.727; 0.716];
 [1; 1; 1; 1; 0.96; 0.94; 0.907; 0.88; 0.856; 0.836; 0.817; 0.799; 0.783; 0.768; 0.754; 0.74; 0.728; 0.716];
 [1; 1; 1; 1; 0.964; 0.944; 0.91; 0.882; 0.859; 0.837; 0.818; 0.801; 0.784; 0.769; 0.754; 0.741; 0.729; 0.716];
 [1; 1; 1; 1; 0.966; 0.946; 0.913; 0.885; 0.86; 0.839; 0.819; 0.802; 0.785; 0.769; 0.755; 0.742; 0.729; 0.717];
 [1; 1; 1; 1; 1; 0.947; 0.916; 0.887; 0.862; 0.84; 0.82; 0.802; 0.786; 0.77; 0.756; 0.742; 0.729; 0.717];
 [1; 1; 1; 1; 1; 0.949; 0.919; 0.889; 0.863; 0.842; 0.822; 0.803; 0.787; 0.771; 0.756; 0.743; 0.73; 0.717];
 [1; 1; 1; 1; 1; 0.951; 0.922; 0.891; 0.865; 0.843; 0.823; 0.805; 0.788; 0.772; 0.757; 0.744; 0.73; 0.718];
 [1; 1; 1; 1; 1; 0.953; 0.925; 0.893; 0.867; 0.844; 0.824; 0.806; 0.788; 0.772; 0.758; 0.744; 0.731; 0.719];
 [1; 1; 1; 1; 1; 0.955; 0.928; 0.896; 0.869; 0.846; 0.825; 0.806; 0.789; 0.773; 0.758; 0.744; 0.732; 0.719];
 [1; 1; 1; 1; 1; 0.957; 0.932; 0.898; 0.871; 0.847; 0.827; 0.807; 0.79; 0.774; 0.759; 0.745; 0.732; 0.719];
 [1; 1; 1; 1; 1; 0.96; 0.935; 0.901; 0.873; 0.849; 0.828; 0.809; 0.791; 0.775; 0.76; 0.746; 0.732; 0.72];
 [1; 1; 1; 1; 1; 0.963; 0.939; 0.903; 0.875; 0.85; 0.829; 0.81; 0.792; 0.776; 0.76; 0.746; 0.733; 0.721];
 [1; 1; 1; 1; 1; 0.966; 0.943; 0.906; 0.877; 0.852; 0.83; 0.811; 0.793; 0.776; 0.761; 0.747; 0.734; 0.721];
 [1; 1; 1; 1; 1; 0.97; 0.947; 0.909; 0.879; 0.853; 0.832; 0.812; 0.794; 0.777; 0.762; 0.747; 0.734; 0.721];
 [1; 1; 1; 1; 1; 0.973; 0.95; 0.911; 0.881; 0.855; 0.833; 0.813; 0.795; 0.778; 0.763; 0.748; 0.734; 0.722];
 [1; 1; 1; 1; 1; 0.977; 0.954; 0.914; 0.883; 0.857; 0.834; 0.814; 0.796; 0.779; 0.763; 0.749; 0.735; 0.722];
 [1; 1; 1; 1; 1; 0.981; 0.957; 0.917; 0.885; 0.859; 0.836; 0.815; 0.797; 0.78; 0.764; 0.749; 0.735; 0.722];
 [1; 1; 1; 1; 1; 0.984; 0.959; 0.92; 0.887; 0.86; 0.837; 0.816; 0.798; 0.78; 0.764; 0.75; 0.736; 0.723];
 [1; 1; 1; 1; 1; 1; 0.961; 0.923; 0.889; 0.862; 0.838; 0.817; 0.799; 0.781; 0.765; 0.75; 0.737; 0.723];
 [1; 1; 1; 1; 1; 1; 0.962; 0.925; 0.891; 0.863; 0.839; 0.818; 0.799; 0.782; 0.766; 0.751; 0.737; 0.724];
 [1; 1; 1; 1; 1; 1; 0.963; 0.928; 0.893; 0.865; 0.84; 0.819; 0.8; 0.782; 0.766; 0.751; 0.737; 0.724];
 [1; 1; 1; 1; 1; 1; 0.964; 0.93; 0.893; 0.865; 0.84; 0.819; 0.799; 0.781; 0.765; 0.75; 0.736; 0.723];
 [1; 1; 1; 1; 1; 1; 0.964; 0.931; 0.894; 0.865; 0.84; 0.818; 0.798; 0.78; 0.764; 0.749; 0.735; 0.722];
 [1; 1; 1; 1; 1; 1; 0.965; 0.932; 0.894; 0.865; 0.839; 0.817; 0.797; 0.78; 0.763; 0.748; 0.734; 0.721];
 [1; 1; 1; 1; 1; 1; 0.966; 0.933; 0.894; 0.864; 0.839; 0.817; 0.797; 0.779; 0.762; 0.747; 0.733; 0.719];
 [1; 1; 1; 1; 1; 1; 0.967; 0.935; 0.895; 0.864; 0.839; 0.816; 0.796; 0.778; 0.761; 0.746; 0.732; 0.718];
 [1; 1; 1; 1; 1; 1; 0.967; 0.936; 0.896; 0.864; 0.838; 0.816; 0.796; 0.777; 0.76; 0.745; 0.731; 0.717];
 [1; 1; 1; 1; 1; 1; 0.968; 0.937; 0.896; 0.864; 0.838; 0.815; 0.795; 0.776; 0.759; 0.744; 0.729; 0.716];
 [1; 1; 1; 1; 1; 1; 0.969; 0.939; 0.896; 0.864; 0.837; 0.814; 0.794; 0.775; 0.758; 0.743; 0.728; 0.715];
 [1; 1; 1; 1; 1; 1; 0.971; 0.94; 0.897; 0.864; 0.837; 0.813; 0.792; 0.774; 0.757; 0.741; 0.727; 0.713];
 [1; 1; 1; 1; 1; 1; 0.972; 0.942; 0.897; 0.863; 0.837; 0.813; 0.792; 0.773; 0.756; 0.74; 0.725; 0.712];
 [1; 1; 1; 1; 1; 1; 0.976; 0.946; 0.897; 0.863; 0.835; 0.811; 0.79; 0.771; 0.753; 0.737; 0.723; 0.709];
 [1; 1; 1; 1; 1; 1; 0.978; 0.947; 0.898; 0.862; 0.834; 0.81; 0.789; 0.77; 0.752; 0.736; 0.721; 0.707];
 [1; 1; 1; 1; 1; 1; 1; 0.948; 0.898; 0.862; 0.833; 0.809; 0.787; 0.768; 0.751; 0.734; 0.72; 0.706];
 [1; 1; 1; 1; 1; 1; 1; 0.948; 0.898; 0.862; 0.832; 0.808; 0.786; 0.767; 0.749; 0.733; 0.719; 0.704];
 [1; 1; 1; 1; 1; 1; 1; 0.948; 0.899; 0.861; 0.832; 0.807; 0.785; 0.766; 0.748; 0.732; 0.717; 0.703];
 [1; 1; 1; 1; 1; 1; 1; 0.947; 0.899; 0.861; 0.831; 0.806; 0.784; 0.764; 0.746; 0.73; 0.716; 0.702];
 [1; 1; 1; 1; 1; 1; 1; 0.947; 0.899; 0.861; 0.83; 0.804; 0.782; 0.763; 0.745; 0.728; 0.714; 0.7];
 [1; 1; 1; 1; 1; 1; 1; 0.946; 0.899; 0.86; 0.829; 0.803; 0.781; 0.761; 0.743; 0.727; 0.712; 0.698];
 [1; 1; 1; 1; 1; 1; 1; 0.945; 0.9; 0.859; 0.828; 0.802; 0.779; 0.759; 0.741; 0.725; 0.71; 0.696];
 [1; 1; 1; 1; 1; 1; 1; 0.945; 0.9; 0.859; 0.827; 0.801; 0.778; 0.757; 0.739; 0.723; 0.708; 0.694];
 [1; 1; 1; 1; 1; 1; 1; 0.945; 0.9; 0.858; 0.826; 0.799; 0.776; 0.756; 0.738; 0.721; 0.706; 0.692];
 [1; 1; 1; 1; 1; 1; 1; 0.944; 0.9; 0.857; 0.825; 0.797; 0.774; 0.754; 0.736; 0.719; 0.704; 0.69];
 [1; 1; 1; 1; 1; 1; 1; 0.944; 0.9; 0.856; 0.823; 0.796; 0.773; 0.752; 0.734; 0.717; 0.702; 0.688];
 [1; 1; 1; 1; 1; 1; 1; 0.944; 0.9; 0.855; 0.822; 0.794; 0.771; 0.75; 0.732; 0.715; 0.7; 0.686];
 [1; 1; 1; 1; 1; 1; 1; 0.944; 0.9; 0.854; 0.82; 0.792; 0.769; 0.748; 0.73; 0.713; 0.698; 0.684];
 [1; 1; 1; 1; 1; 1; 1; 0.944; 0.9; 0.853; 0.819; 0.791; 0.767; 0.746; 0.728; 0.711; 0.696; 0.681];
 [1; 1; 1; 1; 1; 1; 1; 0.944; 0.901; 0.852; 0.817; 0.789; 0.765; 0.744; 0.725; 0.709; 0.694; 0.679];
 [1; 1; 1; 1; 1; 1; 1; 0.945; 0.901; 0.851; 0.815; 0.787; 0.763; 0.742; 0.723; 0.706; 0.691; 0.677];
 [1; 1; 1; 1; 1; 1; 1; 0.945; 0.901; 0.85; 0.814; 0.785; 0.761; 0.739; 0.72; 0.704; 0.689; 0.674];
 [1; 1; 1; 1; 1; 1; 1; 0.945; 0.901; 0.849; 0.812; 0.783; 0.758; 0.737; 0.718; 0.701; 0.686; 0.671];
 [1; 1; 1; 1; 1; 1; 1; 0.946; 0.901; 0.847; 0.81; 0.781; 0.756; 0.734; 0.715; 0.698; 0.683; 0.669];
 [1; 1; 1; 1; 1; 1; 1; 0.948; 0.901; 0.846; 0.808; 0.778; 0.753; 0.732; 0.713; 0.696; 0.681; 0.666];
 [1; 1; 1; 1; 1; 1; 1; 0.95; 0.9; 0.844; 0.806; 0.776; 0.75; 0.729; 0.71; 0.693; 0.677; 0.663];
 [1; 1; 1; 1; 1; 1; 1; 0.952; 0.899; 0.842; 0.803; 0.773; 0.748; 0.726; 0.707; 0.69; 0.674; 0.66];
 [1; 1; 1; 1; 1; 1; 1; 1; 0.899; 0.84; 0.801; 0.77; 0.745; 0.723; 0.704; 0.687; 0.671; 0.657];
 [1; 1; 1; 1; 1; 1; 1; 1; 0.899; 0.839; 0.798; 0.767; 0.742; 0.72; 0.701; 0.683; 0.668; 0.654];
 [1; 1; 1; 1; 1; 1; 1; 1; 0.899; 0.837; 0.795; 0.764; 0.738; 0.717; 0.697; 0.68; 0.665; 0.651];
 [1; 1; 1; 1; 1; 1; 1; 1; 0.898; 0.834; 0.792; 0.761; 0.735; 0.713; 0.694; 0.677; 0.661; 0.647];
 [1; 1; 1; 1; 1; 1; 1; 1; 0.896; 0.832; 0.79; 0.758; 0.732; 0.71; 0.691; 0.673; 0.658; 0.643];
 [1; 1; 1; 1; 1; 1; 1; 1; 0.894; 0.829; 0.786; 0.754; 0.728; 0.706; 0.686; 0.669; 0.654; 0.64];
 [1; 1; 1; 1; 1; 1; 1; 1; 0.892; 0.826; 0.783; 0.75; 0.724; 0.702; 0.682; 0.665; 0.65; 0.636];
 [1; 1; 1; 1; 1; 1; 1; 1; 0.891; 0.823; 0.779; 0.746; 0.72; 0.698; 0.679; 0.661; 0.646; 0.631];
 [1; 1; 1; 1; 1; 1; 1; 1; 0.887; 0.82; 0.776; 0.743; 0.716; 0.694; 0.674; 0.657; 0.641; 0.627]].
(** safety_valve.py:507-510 *)
Definition Kb_16_over_x : list Q := [37.6478; 38.1735; 38.6991; 39.2904; 39.8817; 40.4731; 40.9987; 41.59; 42.1156; 42.707; 43.2326; 43.8239; 44.4152; 44.9409; 45.5322; 46.0578; 46.6491; 47.2405; 47.7661; 48.3574; 48.883; 49.4744; 50.0].
(** safety_valve.py:511-514 *)
Definition Kb_16_over_y : list Q := [0.998106; 0.994318; 0.99053; 0.985795; 0.982008; 0.97822; 0.973485; 0.96875; 0.964962; 0.961174; 0.956439; 0.951705; 0.947917; 0.943182; 0.939394; 0.935606; 0.930871; 0.926136; 0.921402; 0.918561; 0.913826; 0.910038; 0.90625].
(** safety_valve.py:516-522 *)
Definition Kb_10_over_x : list Q := [30.0263; 30.6176; 31.1432; 31.6689; 32.1945; 32.6544; 33.18; 33.7057; 34.1656; 34.6255; 35.0854; 35.5453; 36.0053; 36.4652; 36.9251; 37.385; 37.8449; 38.2392; 38.6334; 39.0276; 39.4875; 39.9474; 40.4074; 40.8016; 41.1958; 41.59; 42.0499; 42.4442; 42.8384; 43.2326; 43.6925; 44.0867; 44.4809; 44.8752; 45.2694; 45.6636; 46.0578; 46.452; 46.8463; 47.2405; 47.6347; 48.0289; 48.4231; 48.883; 49.2773; 49.6715].
(** safety_valve.py:523-530 *)
Definition Kb_10_over_y : list Q := [0.998106; 0.995265; 0.99053; 0.985795; 0.981061; 0.975379; 0.969697; 0.963068; 0.957386; 0.950758; 0.945076; 0.938447; 0.930871; 0.925189; 0.918561; 0.910985; 0.904356; 0.897727; 0.891098; 0.883523; 0.876894; 0.870265; 0.862689; 0.856061; 0.848485; 0.840909; 0.83428; 0.827652; 0.820076; 0.8125; 0.805871; 0.798295; 0.79072; 0.783144; 0.775568; 0.768939; 0.762311; 0.754735; 0.747159; 0.739583; 0.732008; 0.724432; 0.716856; 0.70928; 0.701705; 0.695076].
(** safety_valve.py:840-846 *)
Definition Kw_x : list Q := [15.0; 16.5493; 17.3367; 18.124; 18.8235; 19.5231; 20.1351; 20.8344; 21.4463; 22.0581; 22.9321; 23.5439; 24.1556; 24.7674; 25.0296; 25.6414; 26.2533; 26.8651; 27.7393; 28.3511; 28.9629; 29.6623; 29.9245; 30.5363; 31.2357; 31.8475; 32.7217; 33.3336; 34.0329; 34.6448; 34.8196; 35.4315; 36.1308; 36.7428; 37.7042; 38.3162; 39.0154; 39.7148; 40.3266; 40.9384; 41.6378; 42.7742; 43.386; 43.9978; 44.6098; 45.2216; 45.921; 46.5329; 47.7567; 48.3685; 49.0679; 49.6797; 50.0].
(** safety_valve.py:847-854 *)
Definition Kw_y : list Q := [1; 0.996283; 0.992565; 0.987918; 0.982342; 0.976766; 0.97119; 0.964684; 0.958178; 0.951673; 0.942379; 0.935874; 0.928439; 0.921933; 0.919145; 0.912639; 0.906134; 0.899628; 0.891264; 0.884758; 0.878253; 0.871747; 0.868959; 0.862454; 0.855948; 0.849442; 0.841078; 0.834572; 0.828067; 0.821561; 0.819703; 0.814126; 0.806691; 0.801115; 0.790892; 0.785316; 0.777881; 0.771375; 0.76487; 0.758364; 0.751859; 0.740706; 0.734201; 0.727695; 0.722119; 0.715613; 0.709108; 0.702602; 0.69052; 0.684015; 0.677509; 0.671004; 0.666357].
