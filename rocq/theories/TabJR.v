(** TabJR.v — real part of the Cartesian-to-spinor coefficient table.
    Generated from the text of the source file: entry q is the q-th literal of the
    initialiser times 10^18 (no literal has more than 18 decimals). *)
From Coq Require Import ZArith List.
Import ListNotations.
Local Open Scope Z_scope.

Definition g_trans_cart2jR_dec_0 : list Z := [
  0; 1000000000000000000; 1000000000000000000; 0; -577350269189625764; 0; 0; 0; 0; 577350269189625764; 0; 0;
  -577350269189625764; -577350269189625764; 0; 0; 0; 0; 0; 707106781186547524; 0; 0; 408248290463863016; 0;
  0; 0; 0; 816496580927726033; 0; 0; 816496580927726033; -408248290463863016; 0; 0; -707106781186547524; 0;
  0; 0; 0; 0; -345494149471335479; 0; 0; 345494149471335479; 0; 0; 0; 0;
  345494149471335479; 0; 0; 0; 0; 0; -598413420602149016; 0; 0; 0; -199471140200716338; 0;
  0; -199471140200716338; 0; 398942280401432677; 199471140200716338; 0; 0; 199471140200716338; 0; -398942280401432677; 0; 0;
  -598413420602149016; 0; 0; 0; 0; 0; 345494149471335479; 0; 0; 0; 345494149471335479; 0;
  0; -345494149471335479; 0; 0; 0; 0; 0; 0; 0; 0; 386274202023189580; 0;
  0; -386274202023189580; 0; 0; 172747074735667739; 0; 0; -172747074735667739; 0; 0; 0; 0;
  690988298942670958; 0; 0; 0; 0; 0; 488602511902919921; 0; 0; 0; -244301255951459960; 0;
  0; -244301255951459960; 0; 488602511902919921; -244301255951459960; 0; 0; -244301255951459960; 0; 488602511902919921; 0; 0;
  -488602511902919921; 0; 0; 0; 0; 0; -690988298942670958; 0; 0; 0; 172747074735667739; 0;
  0; -172747074735667739; 0; 0; 386274202023189580; 0; 0; -386274202023189580; 0; 0; 0; 0;
  0; 0; 0; 0; -386274202023189580; 0; 0; 1158822606069568741; 0; 0; 0; 0;
  0; 0; 0; 0; 386274202023189580; 0; 0; 0; 0; -386274202023189580; 0; 0;
  0; 0; -863735373678338698; 0; 0; 0; 0; 863735373678338698; 0; 0; -172747074735667739; 0;
  0; -172747074735667739; 0; 690988298942670958; 0; 0; 0; 0; 244301255951459960; 0; 0; 244301255951459960;
  0; -977205023805839843; 0; 0; 0; 0; 0; 0; -732903767854379882; 0; 0; 0;
  0; -732903767854379882; 0; 488602511902919921; 0; 0; 732903767854379882; 0; 0; 0; 0; 732903767854379882;
  0; -488602511902919921; 244301255951459960; 0; 0; 244301255951459960; 0; -977205023805839843; 0; 0; 0; 0;
  -172747074735667739; 0; 0; -172747074735667739; 0; 690988298942670958; 0; 0; 0; 0; 0; 0;
  863735373678338698; 0; 0; 0; 0; -863735373678338698; 0; 0; 0; 0; -386274202023189580; 0;
  0; 0; 0; 386274202023189580; 0; 0; -386274202023189580; 0; 0; 1158822606069568741; 0; 0;
  0; 0; 0; 0; 0; 0; 0; 0; 0; 0; 0; 0;
  0; 0; 417223823632784089; 0; 0; -1251671470898352269; 0; 0; 0; 0; 0; 0;
  157695782626260003; 0; 0; -473087347878780009; 0; 0; 0; 0; 0; 0; 0; 0;
  946174695757560018; 0; 0; 0; 0; -946174695757560018; 0; 0; 0; 0; 546274215296039535; 0;
  0; 0; 0; -546274215296039535; 0; 0; -273137107648019767; 0; 0; -273137107648019767; 0; 1092548430592079070;
  0; 0; 0; 0; -211571093830408607; 0; 0; -211571093830408607; 0; 846284375321634430; 0; 0;
  0; 0; 0; 0; -846284375321634430; 0; 0; 0; 0; -846284375321634430; 0; 564189583547756286;
  0; 0; -846284375321634430; 0; 0; 0; 0; -846284375321634430; 0; 564189583547756286; 211571093830408607; 0;
  0; 211571093830408607; 0; -846284375321634430; 0; 0; 0; 0; 273137107648019767; 0; 0; 273137107648019767;
  0; -1092548430592079070; 0; 0; 0; 0; 0; 0; 546274215296039535; 0; 0; 0;
  0; -546274215296039535; 0; 0; 0; 0; 946174695757560018; 0; 0; 0; 0; -946174695757560018;
  0; 0; -157695782626260003; 0; 0; 473087347878780009; 0; 0; 0; 0; 0; 0;
  -417223823632784089; 0; 0; 1251671470898352269; 0; 0; 0; 0; 0; 0; 0; 0;
  0; 0; 0; 0; 0; 0; 0; 0; -417223823632784089; 0; 0; 2503342941796704538;
  0; 0; 0; 0; 0; 0; -417223823632784089; 0; 0; 0; 0; 0;
  0; 417223823632784089; 0; 0; 0; 0; -1251671470898352269; 0; 0; 0; 0; 0;
  0; 0; 0; 0; -1103870478383820021; 0; 0; 0; 0; 3311611435151460063; 0; 0;
  0; 0; 0; 0; 0; -157695782626260003; 0; 0; 0; 0; 946174695757560018; 0;
  0; 0; 0; 157695782626260003; 0; -946174695757560018; 0; 0; 273137107648019767; 0; 0; 0;
  0; -1638822645888118605; 0; 0; 0; 0; -273137107648019767; 0; 1638822645888118605; 0; 0; 0;
  0; -819411322944059302; 0; 0; 0; 0; -819411322944059302; 0; 1092548430592079070; 0; 0; 0;
  0; 0; 0; 0; 1057855469152043038; 0; 0; 0; 0; 1057855469152043038; 0; -1410473958869390717;
  0; 0; 0; 0; 0; 211571093830408607; 0; 0; 423142187660817215; 0; -1692568750643268860; 0;
  0; 0; 0; 211571093830408607; 0; -1692568750643268860; 0; 564189583547756286; -211571093830408607; 0; 0; -423142187660817215;
  0; 1692568750643268860; 0; 0; 0; 0; -211571093830408607; 0; 1692568750643268860; 0; -564189583547756286; 0;
  0; 1057855469152043038; 0; 0; 0; 0; 1057855469152043038; 0; -1410473958869390717; 0; 0; 0;
  0; 0; 0; 0; -819411322944059302; 0; 0; 0; 0; -819411322944059302; 0; 1092548430592079070;
  0; 0; 0; 0; 0; -273137107648019767; 0; 0; 0; 0; 1638822645888118605; 0;
  0; 0; 0; 273137107648019767; 0; -1638822645888118605; 0; 0; 157695782626260003; 0; 0; 0;
  0; -946174695757560018; 0; 0; 0; 0; -157695782626260003; 0; 946174695757560018; 0; 0; 0;
  0; -1103870478383820021; 0; 0; 0; 0; 3311611435151460063; 0; 0; 0; 0; 0;
  0; 0; 0; 0; 417223823632784089; 0; 0; 0; 0; -1251671470898352269; 0; 0;
  0; 0; 0; 0; 0; 417223823632784089; 0; 0; -2503342941796704538; 0; 0; 0;
  0; 0; 0; 417223823632784089; 0; 0; 0; 0; 0; 0; 0; 0;
  0; 0; 0; 0; 0; 0; 0; 0; 0; 0; 0; 442532692444982632;
  0; 0; -2655196154669895796; 0; 0; 0; 0; 0; 0; 442532692444982632; 0; 0;
  0; 0; 147510897481660877; 0; 0; -885065384889965265; 0; 0; 0; 0; 0; 0;
  147510897481660877; 0; 0; 0; 0; 0; 0; 1180087179853287020; 0; 0; 0; 0;
  -3540261539559861062; 0; 0; 0; 0; 0; 0; 0; 0; 0; 590043589926643510; 0;
  0; 0; 0; -1770130769779930531; 0; 0; 0; 0; 0; 0; 0; -295021794963321755;
  0; 0; 0; 0; 1770130769779930531; 0; 0; 0; 0; 295021794963321755; 0; -1770130769779930531;
  0; 0; -193137101011594790; 0; 0; 0; 0; 1158822606069568741; 0; 0; 0; 0;
  193137101011594790; 0; -1158822606069568741; 0; 0; 0; 0; -1158822606069568741; 0; 0; 0; 0;
  -1158822606069568741; 0; 1545096808092758321; 0; 0; 0; 0; 0; 0; 0; -946174695757560018; 0;
  0; 0; 0; -946174695757560018; 0; 1261566261010080024; 0; 0; 0; 0; 0; 236543673939390004;
  0; 0; 473087347878780009; 0; -1892349391515120036; 0; 0; 0; 0; 236543673939390004; 0; -1892349391515120036;
  0; 630783130505040012; 236543673939390004; 0; 0; 473087347878780009; 0; -1892349391515120036; 0; 0; 0; 0;
  236543673939390004; 0; -1892349391515120036; 0; 630783130505040012; 0; 0; 946174695757560018; 0; 0; 0; 0;
  946174695757560018; 0; -1261566261010080024; 0; 0; 0; 0; 0; 0; 0; 1158822606069568741; 0;
  0; 0; 0; 1158822606069568741; 0; -1545096808092758321; 0; 0; 0; 0; 0; -193137101011594790;
  0; 0; 0; 0; 1158822606069568741; 0; 0; 0; 0; 193137101011594790; 0; -1158822606069568741;
  0; 0; -295021794963321755; 0; 0; 0; 0; 1770130769779930531; 0; 0; 0; 0;
  295021794963321755; 0; -1770130769779930531; 0; 0; 0; 0; -590043589926643510; 0; 0; 0; 0;
  1770130769779930531; 0; 0; 0; 0; 0; 0; 0; 0; 0; -1180087179853287020; 0;
  0; 0; 0; 3540261539559861062; 0; 0; 0; 0; 0; 0; 0; 147510897481660877;
  0; 0; -885065384889965265; 0; 0; 0; 0; 0; 0; 147510897481660877; 0; 0;
  0; 0; 442532692444982632; 0; 0; -2655196154669895796; 0; 0; 0; 0; 0; 0;
  442532692444982632; 0; 0; 0; 0; 0; 0; 0; 0; 0; 0; 0;
  0; 0; 0; 0; 0; 0; 0; 0; -442532692444982632; 0; 0; 4425326924449826327;
  0; 0; 0; 0; 0; 0; -2212663462224913163; 0; 0; 0; 0; 0;
  0; 0; 0; 0].
Definition g_trans_cart2jR_dec_1 : list Z := [
  0; 0; 0; 442532692444982632; 0; 0; 0; 0; -2655196154669895796; 0; 0; 0;
  0; 0; 0; 0; 0; 442532692444982632; 0; 0; 0; 0; 0; 0;
  -1327598077334947898; 0; 0; 0; 0; 7965588464009687389; 0; 0; 0; 0; 0; 0;
  0; 0; -1327598077334947898; 0; 0; 0; 0; -147510897481660877; 0; 0; 295021794963321755; 0;
  1180087179853287020; 0; 0; 0; 0; 442532692444982632; 0; -3540261539559861062; 0; 0; 0; 0;
  0; 0; 0; 0; 295021794963321755; 0; 0; -590043589926643510; 0; -2360174359706574041; 0; 0;
  0; 0; -885065384889965265; 0; 7080523079119722124; 0; 0; 0; 0; 0; 0; 0;
  0; 0; 0; -885065384889965265; 0; 0; 0; 0; 0; 0; 1770130769779930531; 0;
  0; 0; 0; 0; 0; 885065384889965265; 0; -1770130769779930531; 0; 0; 0; 0;
  1351959707081163531; 0; 0; 0; 0; 0; 0; -2703919414162327062; 0; 0; 0; 0;
  0; 0; -1351959707081163531; 0; 2703919414162327062; 0; 0; 193137101011594790; 0; 0; 386274202023189580; 0;
  -2317645212139137482; 0; 0; 0; 0; 193137101011594790; 0; -2317645212139137482; 0; 1545096808092758321; 0; 0;
  0; 0; 0; 0; -236543673939390004; 0; 0; -473087347878780009; 0; 2838524087272680054; 0; 0;
  0; 0; -236543673939390004; 0; 2838524087272680054; 0; -1892349391515120036; 0; 0; 0; 0; 0;
  0; 0; 0; 1182718369696950022; 0; 0; 0; 0; 2365436739393900045; 0; -3153915652525200060; 0;
  0; 0; 0; 0; 0; 1182718369696950022; 0; -3153915652525200060; 0; 630783130505040012; 0; 0;
  -1182718369696950022; 0; 0; 0; 0; -2365436739393900045; 0; 3153915652525200060; 0; 0; 0; 0;
  0; 0; -1182718369696950022; 0; 3153915652525200060; 0; -630783130505040012; -236543673939390004; 0; 0; -473087347878780009; 0;
  2838524087272680054; 0; 0; 0; 0; -236543673939390004; 0; 2838524087272680054; 0; -1892349391515120036; 0; 0;
  0; 0; 0; 0; 193137101011594790; 0; 0; 386274202023189580; 0; -2317645212139137482; 0; 0;
  0; 0; 193137101011594790; 0; -2317645212139137482; 0; 1545096808092758321; 0; 0; 0; 0; 0;
  0; 0; 0; -1351959707081163531; 0; 0; 0; 0; 0; 0; 2703919414162327062; 0;
  0; 0; 0; 0; 0; 1351959707081163531; 0; -2703919414162327062; 0; 0; 0; 0;
  885065384889965265; 0; 0; 0; 0; 0; 0; -1770130769779930531; 0; 0; 0; 0;
  0; 0; -885065384889965265; 0; 1770130769779930531; 0; 0; 295021794963321755; 0; 0; -590043589926643510; 0;
  -2360174359706574041; 0; 0; 0; 0; -885065384889965265; 0; 7080523079119722124; 0; 0; 0; 0;
  0; 0; 0; 0; -147510897481660877; 0; 0; 295021794963321755; 0; 1180087179853287020; 0; 0;
  0; 0; 442532692444982632; 0; -3540261539559861062; 0; 0; 0; 0; 0; 0; 0;
  0; 0; 0; 1327598077334947898; 0; 0; 0; 0; -7965588464009687389; 0; 0; 0;
  0; 0; 0; 0; 0; 1327598077334947898; 0; 0; 0; 0; 0; 0;
  -442532692444982632; 0; 0; 0; 0; 2655196154669895796; 0; 0; 0; 0; 0; 0;
  0; 0; -442532692444982632; 0; 0; 0; 0; -442532692444982632; 0; 0; 4425326924449826327; 0;
  0; 0; 0; 0; 0; -2212663462224913163; 0; 0; 0; 0; 0; 0;
  0; 0; 0; 0; 0; 0; 0; 0; 0; 0; 0; 0;
  0; 0; 0; 0; 0; 0; 0; 0; 0; 0; 0; 0;
  0; 464132203440858160; 0; 0; -4641322034408581606; 0; 0; 0; 0; 0; 0; 2320661017204290803;
  0; 0; 0; 0; 0; 0; 0; 0; 0; 0; 139941124721293271; 0;
  0; -1399411247212932717; 0; 0; 0; 0; 0; 0; 699705623606466358; 0; 0; 0;
  0; 0; 0; 0; 0; 0; 0; 0; 0; 1399411247212932717; 0; 0;
  0; 0; -8396467483277596306; 0; 0; 0; 0; 0; 0; 0; 0; 1399411247212932717;
  0; 0; 0; 0; 0; 0; 625835735449176134; 0; 0; 0; 0; -3755014412695056807;
  0; 0; 0; 0; 0; 0; 0; 0; 625835735449176134; 0; 0; 0;
  0; -312917867724588067; 0; 0; 625835735449176134; 0; 2503342941796704538; 0; 0; 0; 0; 938753603173764201;
  0; -7510028825390113615; 0; 0; 0; 0; 0; 0; 0; 0; -180663215165034628; 0;
  0; 361326430330069256; 0; 1445305721320277027; 0; 0; 0; 0; 541989645495103885; 0; -4335917163960831083; 0;
  0; 0; 0; 0; 0; 0; 0; 0; 0; -1445305721320277027; 0; 0;
  0; 0; 0; 0; 2890611442640554055; 0; 0; 0; 0; 0; 0; 1445305721320277027;
  0; -2890611442640554055; 0; 0; 0; 0; -1021985476433282363; 0; 0; 0; 0; 0;
  0; 2043970952866564726; 0; 0; 0; 0; 0; 0; 1021985476433282363; 0; -2043970952866564726; 0;
  0; 255496369108320590; 0; 0; 510992738216641181; 0; -3065956429299847090; 0; 0; 0; 0; 255496369108320590;
  0; -3065956429299847090; 0; 2043970952866564726; 0; 0; 0; 0; 0; 0; 215933843419584674; 0;
  0; 431867686839169349; 0; -2591206121035016094; 0; 0; 0; 0; 215933843419584674; 0; -2591206121035016094; 0;
  1727470747356677396; 0; 0; 0; 0; 0; 0; 0; 0; 1295603060517508047; 0; 0;
  0; 0; 2591206121035016094; 0; -3454941494713354792; 0; 0; 0; 0; 0; 0; 1295603060517508047;
  0; -3454941494713354792; 0; 690988298942670958; 0; 0; 1295603060517508047; 0; 0; 0; 0; 2591206121035016094;
  0; -3454941494713354792; 0; 0; 0; 0; 0; 0; 1295603060517508047; 0; -3454941494713354792; 0;
  690988298942670958; -215933843419584674; 0; 0; -431867686839169349; 0; 2591206121035016094; 0; 0; 0; 0; -215933843419584674;
  0; 2591206121035016094; 0; -1727470747356677396; 0; 0; 0; 0; 0; 0; -255496369108320590; 0;
  0; -510992738216641181; 0; 3065956429299847090; 0; 0; 0; 0; -255496369108320590; 0; 3065956429299847090; 0;
  -2043970952866564726; 0; 0; 0; 0; 0; 0; 0; 0; -1021985476433282363; 0; 0;
  0; 0; 0; 0; 2043970952866564726; 0; 0; 0; 0; 0; 0; 1021985476433282363;
  0; -2043970952866564726; 0; 0; 0; 0; -1445305721320277027; 0; 0; 0; 0; 0;
  0; 2890611442640554055; 0; 0; 0; 0; 0; 0; 1445305721320277027; 0; -2890611442640554055; 0;
  0; 180663215165034628; 0; 0; -361326430330069256; 0; -1445305721320277027; 0; 0; 0; 0; -541989645495103885;
  0; 4335917163960831083; 0; 0; 0; 0; 0; 0; 0; 0; 312917867724588067; 0;
  0; -625835735449176134; 0; -2503342941796704538; 0; 0; 0; 0; -938753603173764201; 0; 7510028825390113615; 0;
  0; 0; 0; 0; 0; 0; 0; 0; 0; 625835735449176134; 0; 0;
  0; 0; -3755014412695056807; 0; 0; 0; 0; 0; 0; 0; 0; 625835735449176134;
  0; 0; 0; 0; 0; 0; 1399411247212932717; 0; 0; 0; 0; -8396467483277596306;
  0; 0; 0; 0; 0; 0; 0; 0; 1399411247212932717; 0; 0; 0;
  0; -139941124721293271; 0; 0; 1399411247212932717; 0; 0; 0; 0; 0; 0; -699705623606466358;
  0; 0; 0; 0; 0; 0; 0; 0; 0; 0; -464132203440858160; 0;
  0; 4641322034408581606; 0; 0; 0; 0; 0; 0; -2320661017204290803; 0; 0; 0;
  0; 0; 0; 0; 0; 0; 0; 0; 0; 0; 0; 0;
  0; 0; 0; 0; 0; 0; 0; 0; 0; 0; 0; 0;
  0; 0; 0; 0; -464132203440858300; 0; 0; 6961983051612874000; 0; 0; 0; 0;
  0; 0; -6961983051612874000; 0; 0; 0; 0; 0; 0; 0; 0; 0;
  0; 464132203440858300; 0; 0; 0; 0; 0; 0; 0; 0; 464132203440858300; 0;
  0; 0; 0; -4641322034408583300; 0; 0; 0; 0; 0; 0; 0; 0;
  2320661017204291600; 0; 0; 0; 0; 0; 0; 0; 0; 0; 0; 0;
  0; 0; -1539352371934226400; 0; 0; 0; 0; 15393523719342264000; 0; 0; 0; 0;
  0; 0; 0; 0; -7696761859671132000; 0; 0; 0; 0; 0; 0; 0;
  0; 0; 0; 0; -139941124721293200; 0; 0; 699705623606466200; 0; 1399411247212933000; 0; 0;
  0; 0; 699705623606466200; 0].
Definition g_trans_cart2jR_dec_2 : list Z := [
  -8396467483277597000; 0; 0; 0; 0; 0; 0; 0; 0; -139941124721293200; 0; 1399411247212933000;
  0; 0; 0; 0; 312917867724588000; 0; 0; -1564589338622939900; 0; -3129178677245881200; 0; 0;
  0; 0; -1564589338622939900; 0; 18775072063475285200; 0; 0; 0; 0; 0; 0; 0;
  0; 312917867724588000; 0; -3129178677245881200; 0; 0; 0; 0; 0; 0; -938753603173764300; 0;
  0; 0; 0; 1877507206347528700; 0; 2503342941796705000; 0; 0; 0; 0; 0; 0;
  2816260809521292900; 0; -7510028825390114600; 0; 0; 0; 0; 0; 0; 0; 0; 0;
  0; 0; 1625968936485311800; 0; 0; 0; 0; -3251937872970623600; 0; -4335917163960831800; 0; 0;
  0; 0; 0; 0; -4877906809455934600; 0; 13007751491882494600; 0; 0; 0; 0; 0;
  0; 0; 0; 0; 180663215165034700; 0; 0; 180663215165034700; 0; -2890611442640554700; 0; 0;
  0; 0; -180663215165034700; 0; 0; 0; 2890611442640554700; 0; 0; 0; 0; 0;
  0; -180663215165034700; 0; 2890611442640554700; 0; -2890611442640554700; 0; 0; -255496369108320600; 0; 0; -255496369108320600;
  0; 4087941905733130100; 0; 0; 0; 0; 255496369108320600; 0; 0; 0; -4087941905733130100; 0;
  0; 0; 0; 0; 0; 255496369108320600; 0; -4087941905733130100; 0; 4087941905733130100; 0; 0;
  0; 0; 1277481845541603000; 0; 0; 0; 0; 2554963691083206100; 0; -5109927382166412200; 0; 0;
  0; 0; 0; 0; 1277481845541603000; 0; -5109927382166412200; 0; 2043970952866564600; 0; 0; 0;
  0; 0; 0; 0; 0; 0; -1511536903937092500; 0; 0; 0; 0; -3023073807874185000;
  0; 6046147615748370000; 0; 0; 0; 0; 0; 0; -1511536903937092500; 0; 6046147615748370000; 0;
  -2418459046299347800; 0; 0; 0; 0; 0; 0; 0; -215933843419584700; 0; 0; -647801530258754000;
  0; 3886809181552524100; 0; 0; 0; 0; -647801530258754000; 0; 7773618363105048200; 0; -5182412242070031800; 0;
  0; 0; 0; 0; 0; -215933843419584700; 0; 3886809181552524100; 0; -5182412242070031800; 0; 690988298942670900;
  215933843419584700; 0; 0; 647801530258754000; 0; -3886809181552524100; 0; 0; 0; 0; 647801530258754000; 0;
  -7773618363105048200; 0; 5182412242070031800; 0; 0; 0; 0; 0; 0; 215933843419584700; 0; -3886809181552524100;
  0; 5182412242070031800; 0; -690988298942670900; 0; 0; -1511536903937092500; 0; 0; 0; 0; -3023073807874185000;
  0; 6046147615748370000; 0; 0; 0; 0; 0; 0; -1511536903937092500; 0; 6046147615748370000; 0;
  -2418459046299347800; 0; 0; 0; 0; 0; 0; 0; 0; 0; 1277481845541603000; 0;
  0; 0; 0; 2554963691083206100; 0; -5109927382166412200; 0; 0; 0; 0; 0; 0;
  1277481845541603000; 0; -5109927382166412200; 0; 2043970952866564600; 0; 0; 0; 0; 0; 0; 0;
  255496369108320600; 0; 0; 255496369108320600; 0; -4087941905733130100; 0; 0; 0; 0; -255496369108320600; 0;
  0; 0; 4087941905733130100; 0; 0; 0; 0; 0; 0; -255496369108320600; 0; 4087941905733130100;
  0; -4087941905733130100; 0; 0; -180663215165034700; 0; 0; -180663215165034700; 0; 2890611442640554700; 0; 0;
  0; 0; 180663215165034700; 0; 0; 0; -2890611442640554700; 0; 0; 0; 0; 0;
  0; 180663215165034700; 0; -2890611442640554700; 0; 2890611442640554700; 0; 0; 0; 0; 1625968936485311800; 0;
  0; 0; 0; -3251937872970623600; 0; -4335917163960831800; 0; 0; 0; 0; 0; 0;
  -4877906809455934600; 0; 13007751491882494600; 0; 0; 0; 0; 0; 0; 0; 0; 0;
  0; 0; -938753603173764300; 0; 0; 0; 0; 1877507206347528700; 0; 2503342941796705000; 0; 0;
  0; 0; 0; 0; 2816260809521292900; 0; -7510028825390114600; 0; 0; 0; 0; 0;
  0; 0; 0; 0; -312917867724588000; 0; 0; 1564589338622939900; 0; 3129178677245881200; 0; 0;
  0; 0; 1564589338622939900; 0; -18775072063475285200; 0; 0; 0; 0; 0; 0; 0;
  0; -312917867724588000; 0; 3129178677245881200; 0; 0; 0; 0; 139941124721293200; 0; 0; -699705623606466200;
  0; -1399411247212933000; 0; 0; 0; 0; -699705623606466200; 0; 8396467483277597000; 0; 0; 0;
  0; 0; 0; 0; 0; 139941124721293200; 0; -1399411247212933000; 0; 0; 0; 0;
  0; 0; -1539352371934226400; 0; 0; 0; 0; 15393523719342264000; 0; 0; 0; 0;
  0; 0; 0; 0; -7696761859671132000; 0; 0; 0; 0; 0; 0; 0;
  0; 0; 0; 0; 0; 0; 464132203440858300; 0; 0; 0; 0; -4641322034408583300;
  0; 0; 0; 0; 0; 0; 0; 0; 2320661017204291600; 0; 0; 0;
  0; 0; 0; 0; 0; 0; 0; 0; 464132203440858300; 0; 0; -6961983051612874000;
  0; 0; 0; 0; 0; 0; 6961983051612874000; 0; 0; 0; 0; 0;
  0; 0; 0; 0; 0; -464132203440858300; 0; 0; 0; 0; 0; 0;
  0; 0; 0; 0; 0; 0; 0; 0; 0; 0; 0; 0;
  0; 0; 0; 0; 0; 0; 0; 0; 0; 0; 0; 0;
  0; 0; 0; 0; 483084113580066300; 0; 0; -7246261703700994900; 0; 0; 0; 0;
  0; 0; 7246261703700994900; 0; 0; 0; 0; 0; 0; 0; 0; 0;
  0; -483084113580066300; 0; 0; 0; 0; 0; 0; 133983426298076800; 0; 0; -2009751394471152300;
  0; 0; 0; 0; 0; 0; 2009751394471152300; 0; 0; 0; 0; 0;
  0; 0; 0; 0; 0; -133983426298076800; 0; 0; 0; 0; 0; 0;
  0; 0; 1607801115576922300; 0; 0; 0; 0; -16078011155769221600; 0; 0; 0; 0;
  0; 0; 0; 0; 8039005577884610800; 0; 0; 0; 0; 0; 0; 0;
  0; 0; 0; 0; 0; 0; 656382056840170300; 0; 0; 0; 0; -6563820568401703200;
  0; 0; 0; 0; 0; 0; 0; 0; 3281910284200851600; 0; 0; 0;
  0; 0; 0; 0; 0; 0; 0; 0; -328191028420085000; 0; 0; 1640955142100424900;
  0; 3281910284200850700; 0; 0; 0; 0; 1640955142100424900; 0; -19691461705205103500; 0; 0; 0;
  0; 0; 0; 0; 0; -328191028420085000; 0; 3281910284200850700; 0; 0; 0; 0;
  -171392174799174700; 0; 0; 856960873995873200; 0; 1713921747991746800; 0; 0; 0; 0; 856960873995873200; 0;
  -10283530487950480700; 0; 0; 0; 0; 0; 0; 0; 0; -171392174799174700; 0; 1713921747991746800;
  0; 0; 0; 0; 0; 0; -1713921747991746600; 0; 0; 0; 0; 3427843495983493100;
  0; 4570457994644658400; 0; 0; 0; 0; 0; 0; 5141765243975239500; 0; -13711373983933972600; 0;
  0; 0; 0; 0; 0; 0; 0; 0; 0; 0; -1083979290990208000; 0;
  0; 0; 0; 2167958581980415900; 0; 2890611442640554700; 0; 0; 0; 0; 0; 0;
  3251937872970623200; 0; -8671834327921663600; 0; 0; 0; 0; 0; 0; 0; 0; 0;
  270994822747552000; 0; 0; 270994822747552000; 0; -4335917163960831800; 0; 0; 0; 0; -270994822747552000; 0;
  0; 0; 4335917163960831800; 0; 0; 0; 0; 0; 0; -270994822747552000; 0; 4335917163960831800;
  0; -4335917163960831800; 0; 0; 201987615071344200; 0; 0; 201987615071344200; 0; -3231801841141507000; 0; 0;
  0; 0; -201987615071344200; 0; 0; 0; 3231801841141507000; 0; 0; 0; 0; 0;
  0; -201987615071344200; 0; 3231801841141507000; 0; -3231801841141507000; 0; 0; 0; 0; 1615900920570753300; 0;
  0; 0; 0; 3231801841141506600; 0; -6463603682283013200; 0; 0; 0; 0; 0; 0;
  1615900920570753300; 0; -6463603682283013200; 0; 2585441472913204900; 0; 0; 0; 0; 0; 0; 0;
  0; 0; 1399411247212932800; 0; 0; 0; 0; 2798822494425865500; 0; -5597644988851731000; 0; 0;
  0; 0; 0; 0; 1399411247212932800; 0; -5597644988851731000; 0; 2239057995540692000; 0; 0; 0;
  0; 0; 0; 0; -233235207868822100; 0; 0; -699705623606466300; 0; 4198233741638797600; 0; 0;
  0; 0; -699705623606466300; 0; 8396467483277595200; 0; -5597644988851730100; 0; 0; 0; 0; 0;
  0; -233235207868822100; 0; 4198233741638797600; 0; -5597644988851730100; 0; 746352665180230700; -233235207868822100; 0; 0; -699705623606466300;
  0; 4198233741638797600; 0; 0; 0; 0; -699705623606466300; 0; 8396467483277595200; 0; -5597644988851730100; 0;
  0; 0; 0; 0; 0; -233235207868822100; 0; 4198233741638797600; 0; -5597644988851730100; 0; 746352665180230700;
  0; 0; -1399411247212932800; 0].
Definition g_trans_cart2jR_dec_3 : list Z := [
  0; 0; 0; -2798822494425865500; 0; 5597644988851731000; 0; 0; 0; 0; 0; 0;
  -1399411247212932800; 0; 5597644988851731000; 0; -2239057995540692000; 0; 0; 0; 0; 0; 0; 0;
  0; 0; -1615900920570753300; 0; 0; 0; 0; -3231801841141506600; 0; 6463603682283013200; 0; 0;
  0; 0; 0; 0; -1615900920570753300; 0; 6463603682283013200; 0; -2585441472913204900; 0; 0; 0;
  0; 0; 0; 0; 201987615071344200; 0; 0; 201987615071344200; 0; -3231801841141507000; 0; 0;
  0; 0; -201987615071344200; 0; 0; 0; 3231801841141507000; 0; 0; 0; 0; 0;
  0; -201987615071344200; 0; 3231801841141507000; 0; -3231801841141507000; 0; 0; 270994822747552000; 0; 0; 270994822747552000;
  0; -4335917163960831800; 0; 0; 0; 0; -270994822747552000; 0; 0; 0; 4335917163960831800; 0;
  0; 0; 0; 0; 0; -270994822747552000; 0; 4335917163960831800; 0; -4335917163960831800; 0; 0;
  0; 0; 1083979290990208000; 0; 0; 0; 0; -2167958581980415900; 0; -2890611442640554700; 0; 0;
  0; 0; 0; 0; -3251937872970623200; 0; 8671834327921663600; 0; 0; 0; 0; 0;
  0; 0; 0; 0; 0; 0; 1713921747991746600; 0; 0; 0; 0; -3427843495983493100;
  0; -4570457994644658400; 0; 0; 0; 0; 0; 0; -5141765243975239500; 0; 13711373983933972600; 0;
  0; 0; 0; 0; 0; 0; 0; 0; -171392174799174700; 0; 0; 856960873995873200;
  0; 1713921747991746800; 0; 0; 0; 0; 856960873995873200; 0; -10283530487950480700; 0; 0; 0;
  0; 0; 0; 0; 0; -171392174799174700; 0; 1713921747991746800; 0; 0; 0; 0;
  -328191028420085000; 0; 0; 1640955142100424900; 0; 3281910284200850700; 0; 0; 0; 0; 1640955142100424900; 0;
  -19691461705205103500; 0; 0; 0; 0; 0; 0; 0; 0; -328191028420085000; 0; 3281910284200850700;
  0; 0; 0; 0; 0; 0; -656382056840170300; 0; 0; 0; 0; 6563820568401703200;
  0; 0; 0; 0; 0; 0; 0; 0; -3281910284200851600; 0; 0; 0;
  0; 0; 0; 0; 0; 0; 0; 0; 0; 0; -1607801115576922300; 0;
  0; 0; 0; 16078011155769221600; 0; 0; 0; 0; 0; 0; 0; 0;
  -8039005577884610800; 0; 0; 0; 0; 0; 0; 0; 0; 0; 0; 0;
  133983426298076800; 0; 0; -2009751394471152300; 0; 0; 0; 0; 0; 0; 2009751394471152300; 0;
  0; 0; 0; 0; 0; 0; 0; 0; 0; -133983426298076800; 0; 0;
  0; 0; 0; 0; 483084113580066300; 0; 0; -7246261703700994900; 0; 0; 0; 0;
  0; 0; 7246261703700994900; 0; 0; 0; 0; 0; 0; 0; 0; 0;
  0; -483084113580066300; 0; 0; 0; 0; 0; 0; 0; 0; 0; 0;
  0; 0; 0; 0; 0; 0; 0; 0; 0; 0; 0; 0;
  0; 0; 0; 0; 0; 0; 0; 0; 0; 0; 0; 0;
  -483084113580066300; 0; 0; 10144766385181393200; 0; 0; 0; 0; 0; 0; -16907943975302323700; 0;
  0; 0; 0; 0; 0; 0; 0; 0; 0; 3381588795060464400; 0; 0;
  0; 0; 0; 0; 0; 0; 0; 0; 0; 0; 0; 0;
  0; 0; 483084113580066100; 0; 0; 0; 0; -7246261703700992200; 0; 0; 0; 0;
  0; 0; 0; 0; 7246261703700992200; 0; 0; 0; 0; 0; 0; 0;
  0; 0; 0; 0; 0; -483084113580066100; 0; 0; 0; 0; 0; 0;
  0; 0; -1741784541874998400; 0; 0; 0; 0; 26126768128124975700; 0; 0; 0; 0;
  0; 0; 0; 0; -26126768128124975700; 0; 0; 0; 0; 0; 0; 0;
  0; 0; 0; 0; 0; 1741784541874998400; 0; 0; 0; 0; 0; 0;
  -133983426298076800; 0; 0; 1205850836682691400; 0; 1607801115576921600; 0; 0; 0; 0; 669917131490384000; 0;
  -16078011155769214500; 0; 0; 0; 0; 0; 0; 0; 0; -669917131490384000; 0; 8039005577884607200;
  0; 0; 0; 0; 0; 0; 0; 0; 0; 0; 0; 0;
  328191028420085100; 0; 0; -2953719255780766300; 0; -3938292341041021300; 0; 0; 0; 0; -1640955142100425600; 0;
  39382923410410214200; 0; 0; 0; 0; 0; 0; 0; 0; 1640955142100425600; 0; -19691461705205107100;
  0; 0; 0; 0; 0; 0; 0; 0; 0; 0; 0; 0;
  0; 0; -984573085260255300; 0; 0; 0; 0; 4922865426301276800; 0; 3281910284200851200; 0; 0;
  0; 0; 0; 0; 4922865426301276800; 0; -19691461705205107100; 0; 0; 0; 0; 0;
  0; 0; 0; 0; 0; -984573085260255300; 0; 3281910284200851200; 0; 0; 0; 0;
  0; 0; 1885313922790921200; 0; 0; 0; 0; -9426569613954605100; 0; -6284379742636404300; 0; 0;
  0; 0; 0; 0; -9426569613954605100; 0; 37706278455818420500; 0; 0; 0; 0; 0;
  0; 0; 0; 0; 0; 1885313922790921200; 0; -6284379742636404300; 0; 0; 0; 0;
  171392174799174700; 0; 0; -171392174799174700; 0; -3427843495983492300; 0; 0; 0; 0; -856960873995873300; 0;
  6855686991966984500; 0; 4570457994644657500; 0; 0; 0; 0; 0; 0; -514176524397523900; 0; 10283530487950477200;
  0; -13711373983933972600; 0; 0; 0; 0; 0; 0; 0; 0; 0; 0;
  -270994822747552000; 0; 0; 270994822747552000; 0; 5419896454951039100; 0; 0; 0; 0; 1354974113737760000; 0;
  -10839792909902078200; 0; -7226528606601386100; 0; 0; 0; 0; 0; 0; 812984468242655900; 0; -16259689364853116400;
  0; 21679585819804160000; 0; 0; 0; 0; 0; 0; 0; 0; 0; 0;
  0; 0; 1354974113737760000; 0; 0; 0; 0; 1354974113737760000; 0; -7226528606601386100; 0; 0;
  0; 0; 0; 0; -1354974113737760000; 0; 0; 0; 4335917163960832700; 0; 0; 0;
  0; 0; 0; 0; 0; -1354974113737760000; 0; 7226528606601386100; 0; -4335917163960832700; 0; 0;
  0; 0; -1817888535642098200; 0; 0; 0; 0; -1817888535642098200; 0; 9695405523424522400; 0; 0;
  0; 0; 0; 0; 1817888535642098200; 0; 0; 0; -5817243314054714200; 0; 0; 0;
  0; 0; 0; 0; 0; 1817888535642098200; 0; -9695405523424522400; 0; 5817243314054714200; 0; 0;
  -201987615071344200; 0; 0; -605962845214032700; 0; 4847702761712260300; 0; 0; 0; 0; -605962845214032700; 0;
  9695405523424520700; 0; -9695405523424520700; 0; 0; 0; 0; 0; 0; -201987615071344200; 0; 4847702761712260300;
  0; -9695405523424520700; 0; 2585441472913206300; 0; 0; 0; 0; 0; 0; 0; 0;
  233235207868822100; 0; 0; 699705623606466400; 0; -5597644988851730100; 0; 0; 0; 0; 699705623606466400; 0;
  -11195289977703460200; 0; 11195289977703460200; 0; 0; 0; 0; 0; 0; 233235207868822100; 0; -5597644988851730100;
  0; 11195289977703460200; 0; -2985410660720923600; 0; 0; 0; 0; 0; 0; 0; 0;
  0; 0; -1632646455081754500; 0; 0; 0; 0; -4897939365245264300; 0; 9795878730490526800; 0; 0;
  0; 0; 0; 0; -4897939365245264300; 0; 19591757460981053600; 0; -7836702984392421600; 0; 0; 0;
  0; 0; 0; 0; 0; -1632646455081754500; 0; 9795878730490526800; 0; -7836702984392421600; 0; 746352665180230700;
  0; 0; 1632646455081754500; 0; 0; 0; 0; 4897939365245264300; 0; -9795878730490526800; 0; 0;
  0; 0; 0; 0; 4897939365245264300; 0; -19591757460981053600; 0; 7836702984392421600; 0; 0; 0;
  0; 0; 0; 0; 0; 1632646455081754500; 0; -9795878730490526800; 0; 7836702984392421600; 0; -746352665180230700;
  233235207868822100; 0; 0; 699705623606466400; 0; -5597644988851730100; 0; 0; 0; 0; 699705623606466400; 0;
  -11195289977703460200; 0; 11195289977703460200; 0; 0; 0; 0; 0; 0; 233235207868822100; 0; -5597644988851730100;
  0; 11195289977703460200; 0; -2985410660720923600; 0; 0; 0; 0; 0; 0; 0; 0;
  -201987615071344200; 0; 0; -605962845214032700; 0; 4847702761712260300; 0; 0; 0; 0; -605962845214032700; 0;
  9695405523424520700; 0; -9695405523424520700; 0; 0; 0; 0; 0; 0; -201987615071344200; 0; 4847702761712260300;
  0; -9695405523424520700; 0; 2585441472913206300; 0; 0; 0; 0; 0; 0; 0; 0;
  0; 0; 1817888535642098200; 0; 0; 0; 0; 1817888535642098200; 0; -9695405523424522400; 0; 0;
  0; 0; 0; 0; -1817888535642098200; 0; 0; 0; 5817243314054714200; 0; 0; 0;
  0; 0; 0; 0].
Definition g_trans_cart2jR_dec_4 : list Z := [
  0; -1817888535642098200; 0; 9695405523424522400; 0; -5817243314054714200; 0; 0; 0; 0; -1354974113737760000; 0;
  0; 0; 0; -1354974113737760000; 0; 7226528606601386100; 0; 0; 0; 0; 0; 0;
  1354974113737760000; 0; 0; 0; -4335917163960832700; 0; 0; 0; 0; 0; 0; 0;
  0; 1354974113737760000; 0; -7226528606601386100; 0; 4335917163960832700; 0; 0; -270994822747552000; 0; 0; 270994822747552000;
  0; 5419896454951039100; 0; 0; 0; 0; 1354974113737760000; 0; -10839792909902078200; 0; -7226528606601386100; 0;
  0; 0; 0; 0; 0; 812984468242655900; 0; -16259689364853116400; 0; 21679585819804160000; 0; 0;
  0; 0; 0; 0; 0; 0; 0; 0; 171392174799174700; 0; 0; -171392174799174700;
  0; -3427843495983492300; 0; 0; 0; 0; -856960873995873300; 0; 6855686991966984500; 0; 4570457994644657500; 0;
  0; 0; 0; 0; 0; -514176524397523900; 0; 10283530487950477200; 0; -13711373983933972600; 0; 0;
  0; 0; 0; 0; 0; 0; 0; 0; 0; 0; -1885313922790921200; 0;
  0; 0; 0; 9426569613954605100; 0; 6284379742636404300; 0; 0; 0; 0; 0; 0;
  9426569613954605100; 0; -37706278455818420500; 0; 0; 0; 0; 0; 0; 0; 0; 0;
  0; -1885313922790921200; 0; 6284379742636404300; 0; 0; 0; 0; 0; 0; 984573085260255300; 0;
  0; 0; 0; -4922865426301276800; 0; -3281910284200851200; 0; 0; 0; 0; 0; 0;
  -4922865426301276800; 0; 19691461705205107100; 0; 0; 0; 0; 0; 0; 0; 0; 0;
  0; 984573085260255300; 0; -3281910284200851200; 0; 0; 0; 0; 328191028420085100; 0; 0; -2953719255780766300;
  0; -3938292341041021300; 0; 0; 0; 0; -1640955142100425600; 0; 39382923410410214200; 0; 0; 0;
  0; 0; 0; 0; 0; 1640955142100425600; 0; -19691461705205107100; 0; 0; 0; 0;
  0; 0; 0; 0; 0; 0; 0; 0; -133983426298076800; 0; 0; 1205850836682691400;
  0; 1607801115576921600; 0; 0; 0; 0; 669917131490384000; 0; -16078011155769214500; 0; 0; 0;
  0; 0; 0; 0; 0; -669917131490384000; 0; 8039005577884607200; 0; 0; 0; 0;
  0; 0; 0; 0; 0; 0; 0; 0; 0; 0; 1741784541874998400; 0;
  0; 0; 0; -26126768128124975700; 0; 0; 0; 0; 0; 0; 0; 0;
  26126768128124975700; 0; 0; 0; 0; 0; 0; 0; 0; 0; 0; 0;
  0; -1741784541874998400; 0; 0; 0; 0; 0; 0; 0; 0; -483084113580066100; 0;
  0; 0; 0; 7246261703700992200; 0; 0; 0; 0; 0; 0; 0; 0;
  -7246261703700992200; 0; 0; 0; 0; 0; 0; 0; 0; 0; 0; 0;
  0; 483084113580066100; 0; 0; 0; 0; 0; 0; -483084113580066300; 0; 0; 10144766385181393200;
  0; 0; 0; 0; 0; 0; -16907943975302323700; 0; 0; 0; 0; 0;
  0; 0; 0; 0; 0; 3381588795060464400; 0; 0; 0; 0; 0; 0;
  0; 0; 0; 0; 0; 0; 0; 0; 0; 0; 0; 0;
  0; 0; 0; 0; 0; 0; 0; 0; 0; 0; 0; 0;
  0; 0; 0; 0; 0; 0; 0; 0; 0; 0; 0; 0;
  0; 0; 0; 0; 0; 0; 0; 0; 500039563570550800; 0; 0; -10500830834981565300;
  0; 0; 0; 0; 0; 0; 17501384724969277300; 0; 0; 0; 0; 0;
  0; 0; 0; 0; 0; -3500276944993855600; 0; 0; 0; 0; 0; 0;
  0; 0; 0; 0; 0; 0; 0; 0; 129109660143571200; 0; 0; -2711302863014994900;
  0; 0; 0; 0; 0; 0; 4518838105024991900; 0; 0; 0; 0; 0;
  0; 0; 0; 0; 0; -903767621004998400; 0; 0; 0; 0; 0; 0;
  0; 0; 0; 0; 0; 0; 0; 0; 0; 0; 1807535242009996600; 0;
  0; 0; 0; -27113028630149948100; 0; 0; 0; 0; 0; 0; 0; 0;
  27113028630149948100; 0; 0; 0; 0; 0; 0; 0; 0; 0; 0; 0;
  0; -1807535242009996600; 0; 0; 0; 0; 0; 0; 0; 0; 683184105191914200; 0;
  0; 0; 0; -10247761577878712600; 0; 0; 0; 0; 0; 0; 0; 0;
  10247761577878712600; 0; 0; 0; 0; 0; 0; 0; 0; 0; 0; 0;
  0; -683184105191914200; 0; 0; 0; 0; 0; 0; -341592052595957200; 0; 0; 3074328473363615400;
  0; 4099104631151486300; 0; 0; 0; 0; 1707960262979786100; 0; -40991046311514864400; 0; 0; 0;
  0; 0; 0; 0; 0; -1707960262979786100; 0; 20495523155757432200; 0; 0; 0; 0;
  0; 0; 0; 0; 0; 0; 0; 0; -164095514210042600; 0; 0; 1476859627890383200;
  0; 1969146170520510700; 0; 0; 0; 0; 820477571050212800; 0; -19691461705205107100; 0; 0; 0;
  0; 0; 0; 0; 0; -820477571050212800; 0; 9845730852602553500; 0; 0; 0; 0;
  0; 0; 0; 0; 0; 0; 0; 0; 0; 0; -1969146170520510700; 0;
  0; 0; 0; 9845730852602553500; 0; 6563820568401702400; 0; 0; 0; 0; 0; 0;
  9845730852602553500; 0; -39382923410410214200; 0; 0; 0; 0; 0; 0; 0; 0; 0;
  0; -1969146170520510700; 0; 6563820568401702400; 0; 0; 0; 0; 0; 0; -1136887071623737400; 0;
  0; 0; 0; 5684435358118686400; 0; 3789623572079124700; 0; 0; 0; 0; 0; 0;
  5684435358118686400; 0; -22737741432474745600; 0; 0; 0; 0; 0; 0; 0; 0; 0;
  0; -1136887071623737400; 0; 3789623572079124700; 0; 0; 0; 0; 284221767905934300; 0; 0; -284221767905934300;
  0; -5684435358118685500; 0; 0; 0; 0; -1421108839529671600; 0; 11368870716237371000; 0; 7579247144158248500; 0;
  0; 0; 0; 0; 0; -852665303717802900; 0; 17053306074356058300; 0; -22737741432474745600; 0; 0;
  0; 0; 0; 0; 0; 0; 0; 0; 191622276831240400; 0; 0; -191622276831240400;
  0; -3832445536624808500; 0; 0; 0; 0; -958111384156202200; 0; 7664891073249616900; 0; 5109927382166412200; 0;
  0; 0; 0; 0; 0; -574866830493721300; 0; 11497336609874425400; 0; -15329782146499235700; 0; 0;
  0; 0; 0; 0; 0; 0; 0; 0; 0; 0; 1916222768312405300; 0;
  0; 0; 0; 1916222768312405300; 0; -10219854764332826100; 0; 0; 0; 0; 0; 0;
  -1916222768312405300; 0; 0; 0; 6131912858599696900; 0; 0; 0; 0; 0; 0; 0;
  0; -1916222768312405300; 0; 10219854764332826100; 0; -6131912858599696900; 0; 0; 0; 0; 1484299773859483600; 0;
  0; 0; 0; 1484299773859483600; 0; -7916265460583912400; 0; 0; 0; 0; 0; 0;
  -1484299773859483600; 0; 0; 0; 4749759276350348000; 0; 0; 0; 0; 0; 0; 0;
  0; -1484299773859483600; 0; 7916265460583912400; 0; -4749759276350348000; 0; 0; -247383295643247300; 0; 0; -742149886929741800;
  0; 5937199095437933700; 0; 0; 0; 0; -742149886929741800; 0; 11874398190875867300; 0; -11874398190875867300; 0;
  0; 0; 0; 0; 0; -247383295643247300; 0; 5937199095437933700; 0; -11874398190875867300; 0; 3166506184233565300;
  0; 0; 0; 0; 0; 0; 0; 0; -218171559594533500; 0; 0; -654514678783600600;
  0; 5236117430268803800; 0; 0; 0; 0; -654514678783600600; 0; 10472234860537607700; 0; -10472234860537607700; 0;
  0; 0; 0; 0; 0; -218171559594533500; 0; 5236117430268803800; 0; -10472234860537607700; 0; 2792595962810029400;
  0; 0; 0; 0; 0; 0; 0; 0; 0; 0; -1745372476756267700; 0;
  0; 0; 0; -5236117430268803800; 0; 10472234860537605900; 0; 0; 0; 0; 0; 0;
  -5236117430268803800; 0; 20944469721075211800; 0; -8377787888430084700; 0; 0; 0; 0; 0; 0; 0;
  0; -1745372476756267700; 0; 10472234860537605900; 0; -8377787888430084700; 0; 797884560802865200; 0; 0; -1745372476756267700; 0;
  0; 0; 0; -5236117430268803800; 0; 10472234860537605900; 0; 0; 0; 0; 0; 0;
  -5236117430268803800; 0; 20944469721075211800; 0; -8377787888430084700; 0; 0; 0; 0; 0; 0; 0;
  0; -1745372476756267700; 0; 10472234860537605900; 0; -8377787888430084700; 0; 797884560802865200; 218171559594533500; 0; 0; 654514678783600600;
  0; -5236117430268803800; 0; 0; 0; 0; 654514678783600600; 0; -10472234860537607700; 0; 10472234860537607700; 0;
  0; 0; 0; 0].
Definition g_trans_cart2jR_dec_5 : list Z := [
  0; 218171559594533500; 0; -5236117430268803800; 0; 10472234860537607700; 0; -2792595962810029400; 0; 0; 0; 0;
  0; 0; 0; 0; 247383295643247300; 0; 0; 742149886929741800; 0; -5937199095437933700; 0; 0;
  0; 0; 742149886929741800; 0; -11874398190875867300; 0; 11874398190875867300; 0; 0; 0; 0; 0;
  0; 247383295643247300; 0; -5937199095437933700; 0; 11874398190875867300; 0; -3166506184233565300; 0; 0; 0; 0;
  0; 0; 0; 0; 0; 0; 1484299773859483600; 0; 0; 0; 0; 1484299773859483600;
  0; -7916265460583912400; 0; 0; 0; 0; 0; 0; -1484299773859483600; 0; 0; 0;
  4749759276350348000; 0; 0; 0; 0; 0; 0; 0; 0; -1484299773859483600; 0; 7916265460583912400;
  0; -4749759276350348000; 0; 0; 0; 0; 1916222768312405300; 0; 0; 0; 0; 1916222768312405300;
  0; -10219854764332826100; 0; 0; 0; 0; 0; 0; -1916222768312405300; 0; 0; 0;
  6131912858599696900; 0; 0; 0; 0; 0; 0; 0; 0; -1916222768312405300; 0; 10219854764332826100;
  0; -6131912858599696900; 0; 0; -191622276831240400; 0; 0; 191622276831240400; 0; 3832445536624808500; 0; 0;
  0; 0; 958111384156202200; 0; -7664891073249616900; 0; -5109927382166412200; 0; 0; 0; 0; 0;
  0; 574866830493721300; 0; -11497336609874425400; 0; 15329782146499235700; 0; 0; 0; 0; 0; 0;
  0; 0; 0; 0; -284221767905934300; 0; 0; 284221767905934300; 0; 5684435358118685500; 0; 0;
  0; 0; 1421108839529671600; 0; -11368870716237371000; 0; -7579247144158248500; 0; 0; 0; 0; 0;
  0; 852665303717802900; 0; -17053306074356058300; 0; 22737741432474745600; 0; 0; 0; 0; 0; 0;
  0; 0; 0; 0; 0; 0; -1136887071623737400; 0; 0; 0; 0; 5684435358118686400;
  0; 3789623572079124700; 0; 0; 0; 0; 0; 0; 5684435358118686400; 0; -22737741432474745600; 0;
  0; 0; 0; 0; 0; 0; 0; 0; 0; -1136887071623737400; 0; 3789623572079124700;
  0; 0; 0; 0; 0; 0; -1969146170520510700; 0; 0; 0; 0; 9845730852602553500;
  0; 6563820568401702400; 0; 0; 0; 0; 0; 0; 9845730852602553500; 0; -39382923410410214200; 0;
  0; 0; 0; 0; 0; 0; 0; 0; 0; -1969146170520510700; 0; 6563820568401702400;
  0; 0; 0; 0; 164095514210042600; 0; 0; -1476859627890383200; 0; -1969146170520510700; 0; 0;
  0; 0; -820477571050212800; 0; 19691461705205107100; 0; 0; 0; 0; 0; 0; 0;
  0; 820477571050212800; 0; -9845730852602553500; 0; 0; 0; 0; 0; 0; 0; 0;
  0; 0; 0; 0; 341592052595957200; 0; 0; -3074328473363615400; 0; -4099104631151486300; 0; 0;
  0; 0; -1707960262979786100; 0; 40991046311514864400; 0; 0; 0; 0; 0; 0; 0;
  0; 1707960262979786100; 0; -20495523155757432200; 0; 0; 0; 0; 0; 0; 0; 0;
  0; 0; 0; 0; 0; 0; 683184105191914200; 0; 0; 0; 0; -10247761577878712600;
  0; 0; 0; 0; 0; 0; 0; 0; 10247761577878712600; 0; 0; 0;
  0; 0; 0; 0; 0; 0; 0; 0; 0; -683184105191914200; 0; 0;
  0; 0; 0; 0; 0; 0; 1807535242009996600; 0; 0; 0; 0; -27113028630149948100;
  0; 0; 0; 0; 0; 0; 0; 0; 27113028630149948100; 0; 0; 0;
  0; 0; 0; 0; 0; 0; 0; 0; 0; -1807535242009996600; 0; 0;
  0; 0; 0; 0; -129109660143571200; 0; 0; 2711302863014994900; 0; 0; 0; 0;
  0; 0; -4518838105024991900; 0; 0; 0; 0; 0; 0; 0; 0; 0;
  0; 903767621004998400; 0; 0; 0; 0; 0; 0; 0; 0; 0; 0;
  0; 0; 0; 0; -500039563570550800; 0; 0; 10500830834981565300; 0; 0; 0; 0;
  0; 0; -17501384724969277300; 0; 0; 0; 0; 0; 0; 0; 0; 0;
  0; 3500276944993855600; 0; 0; 0; 0; 0; 0; 0; 0; 0; 0;
  0; 0; 0; 0; 0; 0; 0; 0; 0; 0; 0; 0;
  0; 0; 0; 0; 0; 0; 0; 0; 0; 0; 0; 0;
  0; 0; 0; 0; 0; 0; 0; 0; 0; 0; 0; 0;
  0; 0; 0; 0; -500039563570550664; 0; 0; 14001107779975418600; 0; 0; 0; 0;
  0; 0; -35002769449938546500; 0; 0; 0; 0; 0; 0; 0; 0; 0;
  0; 14001107779975418600; 0; 0; 0; 0; 0; 0; 0; 0; 0; 0;
  0; 0; 0; 0; -500039563570550664; 0; 0; 0; 0; 0; 0; 0;
  0; 0; 0; 500039563570550664; 0; 0; 0; 0; -10500830834981563900; 0; 0; 0;
  0; 0; 0; 0; 0; 17501384724969273200; 0; 0; 0; 0; 0; 0;
  0; 0; 0; 0; 0; 0; -3500276944993854650; 0; 0; 0; 0; 0;
  0; 0; 0; 0; 0; 0; 0; 0; 0; 0; 0; 0;
  -1936644902153567670; 0; 0; 0; 0; 40669542945224921000; 0; 0; 0; 0; 0; 0;
  0; 0; -67782571575374868300; 0; 0; 0; 0; 0; 0; 0; 0; 0;
  0; 0; 0; 13556514315074973700; 0; 0; 0; 0; 0; 0; 0; 0;
  0; 0; 0; 0; 0; 0; 0; -129109660143571178; 0; 0; 1807535242009996490; 0;
  1807535242009996490; 0; 0; 0; 0; 0; 0; -27113028630149947300; 0; 0; 0; 0;
  0; 0; 0; 0; -1807535242009996490; 0; 27113028630149947300; 0; 0; 0; 0; 0;
  0; 0; 0; 0; 0; 0; 0; 129109660143571178; 0; -1807535242009996490; 0; 0;
  0; 0; 0; 0; 341592052595957161; 0; 0; -4782288736343400250; 0; -4782288736343400250; 0; 0;
  0; 0; 0; 0; 71734331045151003800; 0; 0; 0; 0; 0; 0; 0;
  0; 4782288736343400250; 0; -71734331045151003800; 0; 0; 0; 0; 0; 0; 0; 0;
  0; 0; 0; 0; -341592052595957161; 0; 4782288736343400250; 0; 0; 0; 0; 0;
  0; 0; 0; -1024776157787871480; 0; 0; 0; 0; 9222985420090843350; 0; 4099104631151485930; 0;
  0; 0; 0; 0; 0; 5123880788939357410; 0; -40991046311514859300; 0; 0; 0; 0;
  0; 0; 0; 0; 0; 0; -5123880788939357410; 0; 20495523155757429700; 0; 0; 0;
  0; 0; 0; 0; 0; 0; 0; 0; 0; 0; 0; 0;
  2133241684730552830; 0; 0; 0; 0; -19199175162574975500; 0; -8532966738922211340; 0; 0; 0; 0;
  0; 0; -10666208423652764200; 0; 85329667389222113400; 0; 0; 0; 0; 0; 0; 0;
  0; 0; 0; 10666208423652764200; 0; -42664833694611056700; 0; 0; 0; 0; 0; 0;
  0; 0; 0; 0; 0; 0; 0; 164095514210042526; 0; 0; -656382056840170103; 0;
  -3938292341041020620; 0; 0; 0; 0; -1640955142100425260; 0; 19691461705205103100; 0; 6563820568401701030; 0; 0;
  0; 0; 0; 0; -656382056840170103; 0; 19691461705205103100; 0; -39382923410410206200; 0; 0; 0;
  0; 0; 0; 0; 0; 0; 0; 164095514210042526; 0; -3938292341041020620; 0; 6563820568401701030;
  0; 0; 0; 0; -284221767905934336; 0; 0; 1136887071623737340; 0; 6821322429742424070; 0; 0;
  0; 0; 2842217679059343360; 0; -34106612148712120300; 0; -11368870716237373400; 0; 0; 0; 0; 0;
  0; 1136887071623737340; 0; -34106612148712120300; 0; 68213224297424240700; 0; 0; 0; 0; 0; 0;
  0; 0; 0; 0; -284221767905934336; 0; 6821322429742424070; 0; -11368870716237373400; 0; 0; 0;
  0; 0; 0; 1421108839529671680; 0; 0; 0; 0; -1421108839529671680; 0; -9474058930197811210; 0;
  0; 0; 0; 0; 0; -7105544197648358400; 0; 18948117860395622400; 0; 7579247144158248960; 0; 0;
  0; 0; 0; 0; 0; 0; -4263326518589015040; 0; 28422176790593433600; 0; -22737741432474746900; 0;
  0; 0; 0; 0; 0; 0; 0; 0; 0; 0; 0; 0;
  -2107845045143644870; 0; 0; 0; 0; 2107845045143644870; 0; 14052300300957632500; 0; 0; 0; 0;
  0; 0; 10539225225718224400; 0; -28104600601915265000; 0; -11241840240766106000; 0; 0; 0; 0; 0;
  0; 0; 0; 6323535135430934620].
Definition g_trans_cart2jR_dec_6 : list Z := [
  0; -42156900902872897500; 0; 33725520722298318000; 0; 0; 0; 0; 0; 0; 0; 0;
  0; 0; 0; -191622276831240443; 0; 0; -383244553662480886; 0; 5748668304937213290; 0; 0; 0;
  0; 0; 0; 5748668304937213290; 0; -15329782146499235500; 0; 0; 0; 0; 0; 0;
  383244553662480886; 0; -5748668304937213290; 0; 0; 0; 6131912858599694180; 0; 0; 0; 0; 0;
  0; 0; 0; 191622276831240443; 0; -5748668304937213290; 0; 15329782146499235500; 0; -6131912858599694180; 0; 0;
  247383295643247195; 0; 0; 494766591286494390; 0; -7421498869297415850; 0; 0; 0; 0; 0; 0;
  -7421498869297415850; 0; 19790663651459775600; 0; 0; 0; 0; 0; 0; -494766591286494390; 0; 7421498869297415850;
  0; 0; 0; -7916265460583910240; 0; 0; 0; 0; 0; 0; 0; 0;
  -247383295643247195; 0; 7421498869297415850; 0; -19790663651459775600; 0; 7916265460583910240; 0; 0; 0; 0; -1731683069502730360;
  0; 0; 0; 0; -5195049208508191090; 0; 13853464556021842900; 0; 0; 0; 0; 0;
  0; -5195049208508191090; 0; 27706929112043685800; 0; -16624157467226211500; 0; 0; 0; 0; 0; 0;
  0; 0; -1731683069502730360; 0; 13853464556021842900; 0; -16624157467226211500; 0; 3166506184233564090; 0; 0; 0;
  0; 0; 0; 0; 0; 0; 0; 0; 1963544036350801460; 0; 0; 0;
  0; 5890632109052404390; 0; -15708352290806411700; 0; 0; 0; 0; 0; 0; 5890632109052404390; 0;
  -31416704581612823400; 0; 18850022748967694000; 0; 0; 0; 0; 0; 0; 0; 0; 1963544036350801460;
  0; -15708352290806411700; 0; 18850022748967694000; 0; -3590480523612894100; 0; 0; 0; 0; 0; 0;
  0; 0; 0; 218171559594533496; 0; 0; 872686238378133983; 0; -6981489907025071860; 0; 0; 0;
  0; 1309029357567200970; 0; -20944469721075215600; 0; 20944469721075215600; 0; 0; 0; 0; 0; 0;
  872686238378133983; 0; -20944469721075215600; 0; 41888939442150431200; 0; -11170383851240115000; 0; 0; 0; 0; 0;
  0; 0; 0; 218171559594533496; 0; -6981489907025071860; 0; 20944469721075215600; 0; -11170383851240115000; 0; 797884560802865356;
  -218171559594533496; 0; 0; -872686238378133983; 0; 6981489907025071860; 0; 0; 0; 0; -1309029357567200970; 0;
  20944469721075215600; 0; -20944469721075215600; 0; 0; 0; 0; 0; 0; -872686238378133983; 0; 20944469721075215600;
  0; -41888939442150431200; 0; 11170383851240115000; 0; 0; 0; 0; 0; 0; 0; 0;
  -218171559594533496; 0; 6981489907025071860; 0; -20944469721075215600; 0; 11170383851240115000; 0; -797884560802865356; 0; 0; 1963544036350801460;
  0; 0; 0; 0; 5890632109052404390; 0; -15708352290806411700; 0; 0; 0; 0; 0;
  0; 5890632109052404390; 0; -31416704581612823400; 0; 18850022748967694000; 0; 0; 0; 0; 0; 0;
  0; 0; 1963544036350801460; 0; -15708352290806411700; 0; 18850022748967694000; 0; -3590480523612894100; 0; 0; 0;
  0; 0; 0; 0; 0; 0; 0; 0; -1731683069502730360; 0; 0; 0;
  0; -5195049208508191090; 0; 13853464556021842900; 0; 0; 0; 0; 0; 0; -5195049208508191090; 0;
  27706929112043685800; 0; -16624157467226211500; 0; 0; 0; 0; 0; 0; 0; 0; -1731683069502730360;
  0; 13853464556021842900; 0; -16624157467226211500; 0; 3166506184233564090; 0; 0; 0; 0; 0; 0;
  0; 0; 0; -247383295643247195; 0; 0; -494766591286494390; 0; 7421498869297415850; 0; 0; 0;
  0; 0; 0; 7421498869297415850; 0; -19790663651459775600; 0; 0; 0; 0; 0; 0;
  494766591286494390; 0; -7421498869297415850; 0; 0; 0; 7916265460583910240; 0; 0; 0; 0; 0;
  0; 0; 0; 247383295643247195; 0; -7421498869297415850; 0; 19790663651459775600; 0; -7916265460583910240; 0; 0;
  191622276831240443; 0; 0; 383244553662480886; 0; -5748668304937213290; 0; 0; 0; 0; 0; 0;
  -5748668304937213290; 0; 15329782146499235500; 0; 0; 0; 0; 0; 0; -383244553662480886; 0; 5748668304937213290;
  0; 0; 0; -6131912858599694180; 0; 0; 0; 0; 0; 0; 0; 0;
  -191622276831240443; 0; 5748668304937213290; 0; -15329782146499235500; 0; 6131912858599694180; 0; 0; 0; 0; -2107845045143644870;
  0; 0; 0; 0; 2107845045143644870; 0; 14052300300957632500; 0; 0; 0; 0; 0;
  0; 10539225225718224400; 0; -28104600601915265000; 0; -11241840240766106000; 0; 0; 0; 0; 0; 0;
  0; 0; 6323535135430934620; 0; -42156900902872897500; 0; 33725520722298318000; 0; 0; 0; 0; 0;
  0; 0; 0; 0; 0; 0; 0; 0; 1421108839529671680; 0; 0; 0;
  0; -1421108839529671680; 0; -9474058930197811210; 0; 0; 0; 0; 0; 0; -7105544197648358400; 0;
  18948117860395622400; 0; 7579247144158248960; 0; 0; 0; 0; 0; 0; 0; 0; -4263326518589015040;
  0; 28422176790593433600; 0; -22737741432474746900; 0; 0; 0; 0; 0; 0; 0; 0;
  0; 0; 0; 284221767905934336; 0; 0; -1136887071623737340; 0; -6821322429742424070; 0; 0; 0;
  0; -2842217679059343360; 0; 34106612148712120300; 0; 11368870716237373400; 0; 0; 0; 0; 0; 0;
  -1136887071623737340; 0; 34106612148712120300; 0; -68213224297424240700; 0; 0; 0; 0; 0; 0; 0;
  0; 0; 0; 284221767905934336; 0; -6821322429742424070; 0; 11368870716237373400; 0; 0; 0; 0;
  -164095514210042526; 0; 0; 656382056840170103; 0; 3938292341041020620; 0; 0; 0; 0; 1640955142100425260; 0;
  -19691461705205103100; 0; -6563820568401701030; 0; 0; 0; 0; 0; 0; 656382056840170103; 0; -19691461705205103100;
  0; 39382923410410206200; 0; 0; 0; 0; 0; 0; 0; 0; 0; 0;
  -164095514210042526; 0; 3938292341041020620; 0; -6563820568401701030; 0; 0; 0; 0; 0; 0; 2133241684730552830;
  0; 0; 0; 0; -19199175162574975500; 0; -8532966738922211340; 0; 0; 0; 0; 0;
  0; -10666208423652764200; 0; 85329667389222113400; 0; 0; 0; 0; 0; 0; 0; 0;
  0; 0; 10666208423652764200; 0; -42664833694611056700; 0; 0; 0; 0; 0; 0; 0;
  0; 0; 0; 0; 0; 0; 0; 0; -1024776157787871480; 0; 0; 0;
  0; 9222985420090843350; 0; 4099104631151485930; 0; 0; 0; 0; 0; 0; 5123880788939357410; 0;
  -40991046311514859300; 0; 0; 0; 0; 0; 0; 0; 0; 0; 0; -5123880788939357410;
  0; 20495523155757429700; 0; 0; 0; 0; 0; 0; 0; 0; 0; 0;
  0; 0; 0; -341592052595957161; 0; 0; 4782288736343400250; 0; 4782288736343400250; 0; 0; 0;
  0; 0; 0; -71734331045151003800; 0; 0; 0; 0; 0; 0; 0; 0;
  -4782288736343400250; 0; 71734331045151003800; 0; 0; 0; 0; 0; 0; 0; 0; 0;
  0; 0; 0; 341592052595957161; 0; -4782288736343400250; 0; 0; 0; 0; 0; 0;
  129109660143571178; 0; 0; -1807535242009996490; 0; -1807535242009996490; 0; 0; 0; 0; 0; 0;
  27113028630149947300; 0; 0; 0; 0; 0; 0; 0; 0; 1807535242009996490; 0; -27113028630149947300;
  0; 0; 0; 0; 0; 0; 0; 0; 0; 0; 0; 0;
  -129109660143571178; 0; 1807535242009996490; 0; 0; 0; 0; 0; 0; 0; 0; -1936644902153567670;
  0; 0; 0; 0; 40669542945224921000; 0; 0; 0; 0; 0; 0; 0;
  0; -67782571575374868300; 0; 0; 0; 0; 0; 0; 0; 0; 0; 0;
  0; 0; 13556514315074973700; 0; 0; 0; 0; 0; 0; 0; 0; 0;
  0; 0; 0; 0; 0; 0; 0; 0; 500039563570550664; 0; 0; 0;
  0; -10500830834981563900; 0; 0; 0; 0; 0; 0; 0; 0; 17501384724969273200; 0;
  0; 0; 0; 0; 0; 0; 0; 0; 0; 0; 0; -3500276944993854650;
  0; 0; 0; 0; 0; 0; 0; 0; 0; 0; 0; 0;
  0; 0; 0; 500039563570550664; 0; 0; -14001107779975418600; 0; 0; 0; 0; 0;
  0; 35002769449938546500; 0; 0; 0; 0; 0; 0; 0; 0; 0; 0;
  -14001107779975418600; 0; 0; 0; 0; 0; 0; 0; 0; 0; 0; 0;
  0; 0; 0; 500039563570550664; 0; 0; 0; 0; 0; 0; 0; 0;
  0; 0; 0; 0; 0; 0; 0; 0; 0; 0; 0; 0;
  0; 0; 0; 0; 0; 0; 0; 0; 0; 0; 0; 0;
  0; 0; 0; 0; 0; 0; 0; 0; 0; 0; 0; 0;
  0; 0; 0; 0].
Definition g_trans_cart2jR_dec_7 : list Z := [
  0; 0; 0; 0; 0; 515428984397284310; 0; 0; -14432011563123960700; 0; 0; 0;
  0; 0; 0; 36080028907809901700; 0; 0; 0; 0; 0; 0; 0; 0;
  0; 0; -14432011563123960700; 0; 0; 0; 0; 0; 0; 0; 0; 0;
  0; 0; 0; 0; 0; 515428984397284310; 0; 0; 0; 0; 0; 0;
  0; 0; 125009890892637666; 0; 0; -3500276944993854650; 0; 0; 0; 0; 0; 0;
  8750692362484636620; 0; 0; 0; 0; 0; 0; 0; 0; 0; 0; -3500276944993854650;
  0; 0; 0; 0; 0; 0; 0; 0; 0; 0; 0; 0;
  0; 0; 125009890892637666; 0; 0; 0; 0; 0; 0; 0; 0; 0;
  0; 2000158254282202660; 0; 0; 0; 0; -42003323339926255800; 0; 0; 0; 0; 0;
  0; 0; 0; 70005538899877093000; 0; 0; 0; 0; 0; 0; 0; 0;
  0; 0; 0; 0; -14001107779975418600; 0; 0; 0; 0; 0; 0; 0;
  0; 0; 0; 0; 0; 0; 0; 0; 0; 0; 707162732524596178; 0;
  0; 0; 0; -14850417383016519700; 0; 0; 0; 0; 0; 0; 0; 0;
  24750695638360866200; 0; 0; 0; 0; 0; 0; 0; 0; 0; 0; 0;
  0; -4950139127672173250; 0; 0; 0; 0; 0; 0; 0; 0; 0; 0;
  0; 0; 0; 0; 0; -353581366262298089; 0; 0; 4950139127672173250; 0; 4950139127672173250; 0;
  0; 0; 0; 0; 0; -74252086915082598700; 0; 0; 0; 0; 0; 0;
  0; 0; -4950139127672173250; 0; 74252086915082598700; 0; 0; 0; 0; 0; 0; 0;
  0; 0; 0; 0; 0; 353581366262298089; 0; -4950139127672173250; 0; 0; 0; 0;
  0; 0; -158126394107949853; 0; 0; 2213769517511297940; 0; 2213769517511297940; 0; 0; 0; 0;
  0; 0; -33206542762669469100; 0; 0; 0; 0; 0; 0; 0; 0; -2213769517511297940;
  0; 33206542762669469100; 0; 0; 0; 0; 0; 0; 0; 0; 0; 0;
  0; 0; 158126394107949853; 0; -2213769517511297940; 0; 0; 0; 0; 0; 0; 0;
  0; -2213769517511297940; 0; 0; 0; 0; 19923925657601681400; 0; 8855078070045191750; 0; 0; 0;
  0; 0; 0; 11068847587556489700; 0; -88550780700451917500; 0; 0; 0; 0; 0; 0;
  0; 0; 0; 0; -11068847587556489700; 0; 44275390350225958700; 0; 0; 0; 0; 0;
  0; 0; 0; 0; 0; 0; 0; 0; 0; 0; -1183309581115876020; 0;
  0; 0; 0; 10649786230042884100; 0; 4733238324463504060; 0; 0; 0; 0; 0; 0;
  5916547905579380080; 0; -47332383244635040600; 0; 0; 0; 0; 0; 0; 0; 0; 0;
  0; -5916547905579380080; 0; 23666191622317520300; 0; 0; 0; 0; 0; 0; 0; 0;
  0; 0; 0; 0; 0; 295827395278969004; 0; 0; -1183309581115876020; 0; -7099857486695256100; 0;
  0; 0; 0; -2958273952789690040; 0; 35499287433476280500; 0; 11833095811158760200; 0; 0; 0; 0;
  0; 0; -1183309581115876020; 0; 35499287433476280500; 0; -70998574866952561000; 0; 0; 0; 0; 0;
  0; 0; 0; 0; 0; 295827395278969004; 0; -7099857486695256100; 0; 11833095811158760200; 0; 0;
  0; 0; 183464362288218895; 0; 0; -733857449152875582; 0; -4403144694917253490; 0; 0; 0; 0;
  -1834643622882188950; 0; 22015723474586267400; 0; 7338574491528755820; 0; 0; 0; 0; 0; 0; -733857449152875582;
  0; 22015723474586267400; 0; -44031446949172534900; 0; 0; 0; 0; 0; 0; 0; 0;
  0; 0; 183464362288218895; 0; -4403144694917253490; 0; 7338574491528755820; 0; 0; 0; 0; 0;
  0; 2201572347458626740; 0; 0; 0; 0; -2201572347458626740; 0; -14677148983057511600; 0; 0; 0;
  0; 0; 0; -11007861737293133700; 0; 29354297966115023300; 0; 11741719186446009300; 0; 0; 0; 0;
  0; 0; 0; 0; -6604717042375880230; 0; 44031446949172534900; 0; -35225157559338027900; 0; 0; 0;
  0; 0; 0; 0; 0; 0; 0; 0; 0; 0; 1556746736160780960; 0;
  0; 0; 0; -1556746736160780960; 0; -10378311574405206400; 0; 0; 0; 0; 0; 0;
  -7783733680803904800; 0; 20756623148810412800; 0; 8302649259524165120; 0; 0; 0; 0; 0; 0; 0;
  0; -4670240208482342880; 0; 31134934723215619200; 0; -24907947778572495300; 0; 0; 0; 0; 0; 0;
  0; 0; 0; 0; 0; -259457789360130160; 0; 0; -518915578720260320; 0; 7783733680803904800; 0;
  0; 0; 0; 0; 0; 7783733680803904800; 0; -20756623148810412800; 0; 0; 0; 0;
  0; 0; 518915578720260320; 0; -7783733680803904800; 0; 0; 0; 8302649259524165120; 0; 0; 0;
  0; 0; 0; 0; 0; 259457789360130160; 0; -7783733680803904800; 0; 20756623148810412800; 0; -8302649259524165120;
  0; 0; -206975714696966254; 0; 0; -413951429393932508; 0; 6209271440908987620; 0; 0; 0; 0;
  0; 0; 6209271440908987620; 0; -16558057175757300300; 0; 0; 0; 0; 0; 0; 413951429393932508;
  0; -6209271440908987620; 0; 0; 0; 6623222870302920130; 0; 0; 0; 0; 0; 0;
  0; 0; 206975714696966254; 0; -6209271440908987620; 0; 16558057175757300300; 0; -6623222870302920130; 0; 0; 0;
  0; -2069757146969662540; 0; 0; 0; 0; -6209271440908987620; 0; 16558057175757300300; 0; 0; 0;
  0; 0; 0; -6209271440908987620; 0; 33116114351514600600; 0; -19869668610908760400; 0; 0; 0; 0;
  0; 0; 0; 0; -2069757146969662540; 0; 16558057175757300300; 0; -19869668610908760400; 0; 3784698783030240070; 0;
  0; 0; 0; 0; 0; 0; 0; 0; 0; 0; -1851247071016075320; 0;
  0; 0; 0; -5553741213048225950; 0; 14809976568128602500; 0; 0; 0; 0; 0; 0;
  -5553741213048225950; 0; 29619953136257205100; 0; -17771971881754323000; 0; 0; 0; 0; 0; 0; 0;
  0; -1851247071016075320; 0; 14809976568128602500; 0; -17771971881754323000; 0; 3385137501286537720; 0; 0; 0; 0;
  0; 0; 0; 0; 0; 231405883877009415; 0; 0; 925623535508037658; 0; -7404988284064301270; 0;
  0; 0; 0; 1388435303262056490; 0; -22214964852192903800; 0; 22214964852192903800; 0; 0; 0; 0;
  0; 0; 925623535508037658; 0; -22214964852192903800; 0; 44429929704385807600; 0; -11847981254502882000; 0; 0; 0;
  0; 0; 0; 0; 0; 231405883877009415; 0; -7404988284064301270; 0; 22214964852192903800; 0; -11847981254502882000;
  0; 846284375321634430; 231405883877009415; 0; 0; 925623535508037658; 0; -7404988284064301270; 0; 0; 0; 0;
  1388435303262056490; 0; -22214964852192903800; 0; 22214964852192903800; 0; 0; 0; 0; 0; 0; 925623535508037658;
  0; -22214964852192903800; 0; 44429929704385807600; 0; -11847981254502882000; 0; 0; 0; 0; 0; 0;
  0; 0; 231405883877009415; 0; -7404988284064301270; 0; 22214964852192903800; 0; -11847981254502882000; 0; 846284375321634430; 0;
  0; 1851247071016075320; 0; 0; 0; 0; 5553741213048225950; 0; -14809976568128602500; 0; 0; 0;
  0; 0; 0; 5553741213048225950; 0; -29619953136257205100; 0; 17771971881754323000; 0; 0; 0; 0;
  0; 0; 0; 0; 1851247071016075320; 0; -14809976568128602500; 0; 17771971881754323000; 0; -3385137501286537720; 0;
  0; 0; 0; 0; 0; 0; 0; 0; 0; 0; 2069757146969662540; 0;
  0; 0; 0; 6209271440908987620; 0; -16558057175757300300; 0; 0; 0; 0; 0; 0;
  6209271440908987620; 0; -33116114351514600600; 0; 19869668610908760400; 0; 0; 0; 0; 0; 0; 0;
  0; 2069757146969662540; 0; -16558057175757300300; 0; 19869668610908760400; 0; -3784698783030240070; 0; 0; 0; 0;
  0; 0; 0; 0; 0; -206975714696966254; 0; 0; -413951429393932508; 0; 6209271440908987620; 0;
  0; 0; 0; 0; 0; 6209271440908987620; 0; -16558057175757300300; 0; 0; 0; 0;
  0; 0; 413951429393932508; 0; -6209271440908987620; 0; 0; 0; 6623222870302920130; 0; 0; 0;
  0; 0; 0; 0; 0; 206975714696966254; 0; -6209271440908987620; 0; 16558057175757300300; 0; -6623222870302920130;
  0; 0; -259457789360130160; 0; 0; -518915578720260320; 0; 7783733680803904800; 0; 0; 0; 0;
  0; 0; 7783733680803904800; 0; -20756623148810412800; 0; 0; 0; 0; 0; 0; 518915578720260320;
  0; -7783733680803904800; 0; 0; 0; 8302649259524165120; 0; 0; 0; 0; 0; 0;
  0; 0; 259457789360130160; 0; -7783733680803904800; 0; 20756623148810412800; 0; -8302649259524165120; 0; 0; 0;
  0; -1556746736160780960; 0; 0].
Definition g_trans_cart2jR_dec_8 : list Z := [
  0; 0; 1556746736160780960; 0; 10378311574405206400; 0; 0; 0; 0; 0; 0; 7783733680803904800;
  0; -20756623148810412800; 0; -8302649259524165120; 0; 0; 0; 0; 0; 0; 0; 0;
  4670240208482342880; 0; -31134934723215619200; 0; 24907947778572495300; 0; 0; 0; 0; 0; 0; 0;
  0; 0; 0; 0; 0; 0; -2201572347458626740; 0; 0; 0; 0; 2201572347458626740;
  0; 14677148983057511600; 0; 0; 0; 0; 0; 0; 11007861737293133700; 0; -29354297966115023300; 0;
  -11741719186446009300; 0; 0; 0; 0; 0; 0; 0; 0; 6604717042375880230; 0; -44031446949172534900;
  0; 35225157559338027900; 0; 0; 0; 0; 0; 0; 0; 0; 0; 0;
  0; 183464362288218895; 0; 0; -733857449152875582; 0; -4403144694917253490; 0; 0; 0; 0; -1834643622882188950;
  0; 22015723474586267400; 0; 7338574491528755820; 0; 0; 0; 0; 0; 0; -733857449152875582; 0;
  22015723474586267400; 0; -44031446949172534900; 0; 0; 0; 0; 0; 0; 0; 0; 0;
  0; 183464362288218895; 0; -4403144694917253490; 0; 7338574491528755820; 0; 0; 0; 0; 295827395278969004; 0;
  0; -1183309581115876020; 0; -7099857486695256100; 0; 0; 0; 0; -2958273952789690040; 0; 35499287433476280500; 0;
  11833095811158760200; 0; 0; 0; 0; 0; 0; -1183309581115876020; 0; 35499287433476280500; 0; -70998574866952561000;
  0; 0; 0; 0; 0; 0; 0; 0; 0; 0; 295827395278969004; 0;
  -7099857486695256100; 0; 11833095811158760200; 0; 0; 0; 0; 0; 0; 1183309581115876020; 0; 0;
  0; 0; -10649786230042884100; 0; -4733238324463504060; 0; 0; 0; 0; 0; 0; -5916547905579380080;
  0; 47332383244635040600; 0; 0; 0; 0; 0; 0; 0; 0; 0; 0;
  5916547905579380080; 0; -23666191622317520300; 0; 0; 0; 0; 0; 0; 0; 0; 0;
  0; 0; 0; 0; 0; 0; 2213769517511297940; 0; 0; 0; 0; -19923925657601681400;
  0; -8855078070045191750; 0; 0; 0; 0; 0; 0; -11068847587556489700; 0; 88550780700451917500; 0;
  0; 0; 0; 0; 0; 0; 0; 0; 0; 11068847587556489700; 0; -44275390350225958700;
  0; 0; 0; 0; 0; 0; 0; 0; 0; 0; 0; 0;
  0; -158126394107949853; 0; 0; 2213769517511297940; 0; 2213769517511297940; 0; 0; 0; 0; 0;
  0; -33206542762669469100; 0; 0; 0; 0; 0; 0; 0; 0; -2213769517511297940; 0;
  33206542762669469100; 0; 0; 0; 0; 0; 0; 0; 0; 0; 0; 0;
  0; 158126394107949853; 0; -2213769517511297940; 0; 0; 0; 0; 0; 0; -353581366262298089; 0;
  0; 4950139127672173250; 0; 4950139127672173250; 0; 0; 0; 0; 0; 0; -74252086915082598700; 0;
  0; 0; 0; 0; 0; 0; 0; -4950139127672173250; 0; 74252086915082598700; 0; 0;
  0; 0; 0; 0; 0; 0; 0; 0; 0; 0; 353581366262298089; 0;
  -4950139127672173250; 0; 0; 0; 0; 0; 0; 0; 0; -707162732524596178; 0; 0;
  0; 0; 14850417383016519700; 0; 0; 0; 0; 0; 0; 0; 0; -24750695638360866200;
  0; 0; 0; 0; 0; 0; 0; 0; 0; 0; 0; 0;
  4950139127672173250; 0; 0; 0; 0; 0; 0; 0; 0; 0; 0; 0;
  0; 0; 0; 0; 0; 0; -2000158254282202660; 0; 0; 0; 0; 42003323339926255800;
  0; 0; 0; 0; 0; 0; 0; 0; -70005538899877093000; 0; 0; 0;
  0; 0; 0; 0; 0; 0; 0; 0; 0; 14001107779975418600; 0; 0;
  0; 0; 0; 0; 0; 0; 0; 0; 0; 0; 0; 0;
  0; 125009890892637666; 0; 0; -3500276944993854650; 0; 0; 0; 0; 0; 0; 8750692362484636620;
  0; 0; 0; 0; 0; 0; 0; 0; 0; 0; -3500276944993854650; 0;
  0; 0; 0; 0; 0; 0; 0; 0; 0; 0; 0; 0;
  0; 125009890892637666; 0; 0; 0; 0; 0; 0; 0; 0; 515428984397284310; 0;
  0; -14432011563123960700; 0; 0; 0; 0; 0; 0; 36080028907809901700; 0; 0; 0;
  0; 0; 0; 0; 0; 0; 0; -14432011563123960700; 0; 0; 0; 0;
  0; 0; 0; 0; 0; 0; 0; 0; 0; 0; 515428984397284310; 0;
  0; 0; 0; 0; 0; 0; 0; 0; 0; 0; 0; 0;
  0; 0; 0; 0; 0; 0; 0; 0; 0; 0; 0; 0;
  0; 0; 0; 0; 0; 0; 0; 0; 0; 0; 0; 0;
  0; 0; 0; 0; 0; 0; 0; 0; 0; 0; 0; 0;
  0; 0; 0; 0; -515428984397284310; 0; 0; 18555443438302235200; 0; 0; 0; 0;
  0; 0; -64944052034057823000; 0; 0; 0; 0; 0; 0; 0; 0; 0;
  0; 43296034689371882000; 0; 0; 0; 0; 0; 0; 0; 0; 0; 0;
  0; 0; 0; 0; -4638860859575558790; 0; 0; 0; 0; 0; 0; 0;
  0; 0; 0; 0; 0; 0; 0; 0; 0; 0; 0; 0;
  0; 515428984397284310; 0; 0; 0; 0; -14432011563123960700; 0; 0; 0; 0; 0;
  0; 0; 0; 36080028907809901700; 0; 0; 0; 0; 0; 0; 0; 0;
  0; 0; 0; 0; -14432011563123960700; 0; 0; 0; 0; 0; 0; 0;
  0; 0; 0; 0; 0; 0; 0; 0; 0; 515428984397284310; 0; 0;
  0; 0; 0; 0; 0; 0; 0; 0; -2125168145174840320; 0; 0; 0;
  0; 59504708064895529000; 0; 0; 0; 0; 0; 0; 0; 0; -148761770162238823000; 0;
  0; 0; 0; 0; 0; 0; 0; 0; 0; 0; 0; 59504708064895529000;
  0; 0; 0; 0; 0; 0; 0; 0; 0; 0; 0; 0;
  0; 0; 0; 0; -2125168145174840320; 0; 0; 0; 0; 0; 0; 0;
  0; -125009890892637666; 0; 0; 2500197817852753320; 0; 2000158254282202660; 0; 0; 0; 0; -1750138472496927320;
  0; -42003323339926255800; 0; 0; 0; 0; 0; 0; 0; 0; -3500276944993854650; 0;
  70005538899877093000; 0; 0; 0; 0; 0; 0; 0; 0; 0; 0; 0;
  0; 875069236248463662; 0; -14001107779975418600; 0; 0; 0; 0; 0; 0; 0; 0;
  0; 0; 0; 0; 0; 0; 0; 0; 353581366262298089; 0; 0; -7071627325245961780;
  0; -5657301860196769430; 0; 0; 0; 0; 4950139127672173250; 0; 118803339064132158000; 0; 0; 0;
  0; 0; 0; 0; 0; 9900278255344346500; 0; -198005565106886930000; 0; 0; 0; 0;
  0; 0; 0; 0; 0; 0; 0; 0; -2475069563836086620; 0; 39601113021377386000; 0;
  0; 0; 0; 0; 0; 0; 0; 0; 0; 0; 0; 0;
  0; 0; 0; 0; 0; -1060744098786894270; 0; 0; 0; 0; 14850417383016519700; 0;
  4950139127672173250; 0; 0; 0; 0; 0; 0; 0; 0; -74252086915082598700; 0; 0;
  0; 0; 0; 0; 0; 0; 0; 0; -14850417383016519700; 0; 74252086915082598700; 0;
  0; 0; 0; 0; 0; 0; 0; 0; 0; 0; 0; 0;
  0; 1060744098786894270; 0; -4950139127672173250; 0; 0; 0; 0; 0; 0; 0; 0;
  2371895911619247790; 0; 0; 0; 0; -33206542762669469100; 0; -11068847587556489700; 0; 0; 0; 0;
  0; 0; 0; 0; 166032713813347345000; 0; 0; 0; 0; 0; 0; 0;
  0; 0; 0; 33206542762669469100; 0; -166032713813347345000; 0; 0; 0; 0; 0; 0;
  0; 0; 0; 0; 0; 0; 0; 0; -2371895911619247790; 0; 11068847587556489700; 0;
  0; 0; 0; 0; 0; 158126394107949853; 0; 0; -1265011152863598820; 0; -4427539035022595870; 0;
  0; 0; 0; -2213769517511297940; 0; 39847851315203362900; 0; 8855078070045191750; 0; 0; 0; 0;
  0; 0; 0; 0; 22137695175112979400; 0; -88550780700451917500; 0; 0; 0; 0; 0;
  0; 0; 0; 0].
Definition g_trans_cart2jR_dec_9 : list Z := [
  0; 790631970539749263; 0; -22137695175112979400; 0; 44275390350225958700; 0; 0; 0; 0; 0; 0;
  0; 0; 0; 0; 0; 0; 0; 0; -295827395278969004; 0; 0; 2366619162231752030;
  0; 8283167067811132110; 0; 0; 0; 0; 4141583533905566060; 0; -74548503610300189000; 0; -16566334135622264200; 0;
  0; 0; 0; 0; 0; 0; 0; -41415835339055660600; 0; 165663341356222642000; 0; 0;
  0; 0; 0; 0; 0; 0; 0; 0; -1479136976394845020; 0; 41415835339055660600; 0;
  -82831670678111321100; 0; 0; 0; 0; 0; 0; 0; 0; 0; 0; 0;
  0; 0; 0; 0; 0; 1479136976394845020; 0; 0; 0; 0; -5916547905579380080; 0;
  -11833095811158760200; 0; 0; 0; 0; 0; 0; -14791369763948450200; 0; 59165479055793800800; 0; 11833095811158760200;
  0; 0; 0; 0; 0; 0; 0; 0; -5916547905579380080; 0; 59165479055793800800; 0;
  -70998574866952561000; 0; 0; 0; 0; 0; 0; 0; 0; 0; 0; 0;
  0; 1479136976394845020; 0; -11833095811158760200; 0; 11833095811158760200; 0; 0; 0; 0; 0; 0;
  -2385036709746845640; 0; 0; 0; 0; 9540146838987382560; 0; 19080293677974765100; 0; 0; 0; 0;
  0; 0; 23850367097468456400; 0; -95401468389873825600; 0; -19080293677974765100; 0; 0; 0; 0; 0;
  0; 0; 0; 9540146838987382560; 0; -95401468389873825600; 0; 114481762067848591000; 0; 0; 0; 0;
  0; 0; 0; 0; 0; 0; 0; 0; -2385036709746845640; 0; 19080293677974765100; 0;
  -19080293677974765100; 0; 0; 0; 0; -183464362288218895; 0; 0; 0; 0; 6604717042375880230; 0;
  0; 0; 0; 1100786173729313370; 0; -6604717042375880230; 0; -22015723474586267400; 0; 0; 0; 0;
  0; 0; 1467714898305751160; 0; -33023585211879401200; 0; 44031446949172534900; 0; 11741719186446009300; 0; 0; 0;
  0; 0; 0; 0; 0; 550393086864656686; 0; -19814151127127640700; 0; 66047170423758802300; 0; -35225157559338027900;
  0; 0; 0; 0; 0; 0; 0; 0; 0; 0; 0; 0;
  259457789360130160; 0; 0; 0; 0; -9340480416964685760; 0; 0; 0; 0; -1556746736160780960; 0;
  9340480416964685760; 0; 31134934723215619200; 0; 0; 0; 0; 0; 0; -2075662314881041280; 0; 46702402084823428800;
  0; -62269869446431238400; 0; -16605298519048330200; 0; 0; 0; 0; 0; 0; 0; 0;
  -778373368080390480; 0; 28021441250894057300; 0; -93404804169646857600; 0; 49815895557144990700; 0; 0; 0; 0; 0;
  0; 0; 0; 0; 0; 0; 0; 0; 0; -1816204525520911120; 0; 0;
  0; 0; -3632409051041822240; 0; 18162045255209111200; 0; 0; 0; 0; 0; 0; 0;
  0; 18162045255209111200; 0; -29059272408334577900; 0; 0; 0; 0; 0; 0; 0; 0;
  3632409051041822240; 0; -18162045255209111200; 0; 0; 0; 8302649259524165120; 0; 0; 0; 0; 0;
  0; 0; 0; 0; 0; 1816204525520911120; 0; -18162045255209111200; 0; 29059272408334577900; 0; -8302649259524165120;
  0; 0; 0; 0; 2276732861666628790; 0; 0; 0; 0; 4553465723333257590; 0; -22767328616666287900;
  0; 0; 0; 0; 0; 0; 0; 0; -22767328616666287900; 0; 36427725786666060700; 0;
  0; 0; 0; 0; 0; 0; 0; -4553465723333257590; 0; 22767328616666287900; 0; 0;
  0; -10407921653333160200; 0; 0; 0; 0; 0; 0; 0; 0; 0; 0;
  -2276732861666628790; 0; 22767328616666287900; 0; -36427725786666060700; 0; 10407921653333160200; 0; 0; 206975714696966254; 0; 0;
  827902858787865016; 0; -8279028587878650160; 0; 0; 0; 0; 1241854288181797520; 0; -24837085763635950500; 0; 33116114351514600600;
  0; 0; 0; 0; 0; 0; 827902858787865016; 0; -24837085763635950500; 0; 66232228703029201300; 0;
  -26492891481211680500; 0; 0; 0; 0; 0; 0; 0; 0; 206975714696966254; 0; -8279028587878650160;
  0; 33116114351514600600; 0; -26492891481211680500; 0; 3784698783030240070; 0; 0; 0; 0; 0; 0;
  0; 0; 0; 0; -231405883877009415; 0; 0; -925623535508037658; 0; 9256235355080376580; 0; 0;
  0; 0; -1388435303262056490; 0; 27768706065241129700; 0; -37024941420321506300; 0; 0; 0; 0; 0;
  0; -925623535508037658; 0; 27768706065241129700; 0; -74049882840643012700; 0; 29619953136257205100; 0; 0; 0; 0;
  0; 0; 0; 0; -231405883877009415; 0; 9256235355080376580; 0; -37024941420321506300; 0; 29619953136257205100; 0;
  -4231421876608172150; 0; 0; 0; 0; 0; 0; 0; 0; 0; 0; 0;
  0; 2082652954893084730; 0; 0; 0; 0; 8330611819572338920; 0; -22214964852192903800; 0; 0; 0;
  0; 0; 0; 12495917729358508400; 0; -66644894556578711400; 0; 39986936733947226800; 0; 0; 0; 0;
  0; 0; 0; 0; 8330611819572338920; 0; -66644894556578711400; 0; 79973873467894453700; 0; -15233118755789419700; 0;
  0; 0; 0; 0; 0; 0; 0; 0; 0; 2082652954893084730; 0; -22214964852192903800;
  0; 39986936733947226800; 0; -15233118755789419700; 0; 846284375321634430; 0; 0; -2082652954893084730; 0; 0; 0;
  0; -8330611819572338920; 0; 22214964852192903800; 0; 0; 0; 0; 0; 0; -12495917729358508400; 0;
  66644894556578711400; 0; -39986936733947226800; 0; 0; 0; 0; 0; 0; 0; 0; -8330611819572338920;
  0; 66644894556578711400; 0; -79973873467894453700; 0; 15233118755789419700; 0; 0; 0; 0; 0; 0;
  0; 0; 0; 0; -2082652954893084730; 0; 22214964852192903800; 0; -39986936733947226800; 0; 15233118755789419700; 0;
  -846284375321634430; -231405883877009415; 0; 0; -925623535508037658; 0; 9256235355080376580; 0; 0; 0; 0; -1388435303262056490;
  0; 27768706065241129700; 0; -37024941420321506300; 0; 0; 0; 0; 0; 0; -925623535508037658; 0;
  27768706065241129700; 0; -74049882840643012700; 0; 29619953136257205100; 0; 0; 0; 0; 0; 0; 0;
  0; -231405883877009415; 0; 9256235355080376580; 0; -37024941420321506300; 0; 29619953136257205100; 0; -4231421876608172150; 0; 0;
  0; 0; 0; 0; 0; 0; 0; 0; 206975714696966254; 0; 0; 827902858787865016;
  0; -8279028587878650160; 0; 0; 0; 0; 1241854288181797520; 0; -24837085763635950500; 0; 33116114351514600600; 0;
  0; 0; 0; 0; 0; 827902858787865016; 0; -24837085763635950500; 0; 66232228703029201300; 0; -26492891481211680500;
  0; 0; 0; 0; 0; 0; 0; 0; 206975714696966254; 0; -8279028587878650160; 0;
  33116114351514600600; 0; -26492891481211680500; 0; 3784698783030240070; 0; 0; 0; 0; 0; 0; 0;
  0; 0; 0; 0; 0; -2276732861666628790; 0; 0; 0; 0; -4553465723333257590; 0;
  22767328616666287900; 0; 0; 0; 0; 0; 0; 0; 0; 22767328616666287900; 0; -36427725786666060700;
  0; 0; 0; 0; 0; 0; 0; 0; 4553465723333257590; 0; -22767328616666287900; 0;
  0; 0; 10407921653333160200; 0; 0; 0; 0; 0; 0; 0; 0; 0;
  0; 2276732861666628790; 0; -22767328616666287900; 0; 36427725786666060700; 0; -10407921653333160200; 0; 0; 0; 0;
  1816204525520911120; 0; 0; 0; 0; 3632409051041822240; 0; -18162045255209111200; 0; 0; 0; 0;
  0; 0; 0; 0; -18162045255209111200; 0; 29059272408334577900; 0; 0; 0; 0; 0;
  0; 0; 0; -3632409051041822240; 0; 18162045255209111200; 0; 0; 0; -8302649259524165120; 0; 0;
  0; 0; 0; 0; 0; 0; 0; 0; -1816204525520911120; 0; 18162045255209111200; 0;
  -29059272408334577900; 0; 8302649259524165120; 0; 0; 259457789360130160; 0; 0; 0; 0; -9340480416964685760; 0;
  0; 0; 0; -1556746736160780960; 0; 9340480416964685760; 0; 31134934723215619200; 0; 0; 0; 0;
  0; 0; -2075662314881041280; 0; 46702402084823428800; 0; -62269869446431238400; 0; -16605298519048330200; 0; 0; 0;
  0; 0; 0; 0; 0; -778373368080390480; 0; 28021441250894057300; 0; -93404804169646857600; 0; 49815895557144990700;
  0; 0; 0; 0; 0; 0; 0; 0; 0; 0; 0; 0;
  -183464362288218895; 0; 0; 0; 0; 6604717042375880230; 0; 0; 0; 0; 1100786173729313370; 0;
  -6604717042375880230; 0; -22015723474586267400; 0; 0; 0; 0; 0; 0; 1467714898305751160; 0; -33023585211879401200;
  0; 44031446949172534900; 0; 11741719186446009300; 0; 0; 0; 0; 0; 0; 0; 0;
  550393086864656686; 0; -19814151127127640700; 0; 66047170423758802300; 0; -35225157559338027900; 0; 0; 0; 0; 0;
  0; 0; 0; 0; 0; 0; 0; 0; 0; 2385036709746845640; 0; 0;
  0; 0; -9540146838987382560; 0; -19080293677974765100; 0; 0; 0; 0; 0; 0; -23850367097468456400;
  0; 95401468389873825600; 0; 19080293677974765100; 0; 0; 0; 0; 0; 0; 0; 0;
  -9540146838987382560; 0; 95401468389873825600; 0; -114481762067848591000; 0; 0; 0; 0; 0; 0; 0;
  0; 0; 0; 0].
Definition g_trans_cart2jR_dec_10 : list Z := [
  0; 2385036709746845640; 0; -19080293677974765100; 0; 19080293677974765100; 0; 0; 0; 0; 0; 0;
  -1479136976394845020; 0; 0; 0; 0; 5916547905579380080; 0; 11833095811158760200; 0; 0; 0; 0;
  0; 0; 14791369763948450200; 0; -59165479055793800800; 0; -11833095811158760200; 0; 0; 0; 0; 0;
  0; 0; 0; 5916547905579380080; 0; -59165479055793800800; 0; 70998574866952561000; 0; 0; 0; 0;
  0; 0; 0; 0; 0; 0; 0; 0; -1479136976394845020; 0; 11833095811158760200; 0;
  -11833095811158760200; 0; 0; 0; 0; -295827395278969004; 0; 0; 2366619162231752030; 0; 8283167067811132110; 0;
  0; 0; 0; 4141583533905566060; 0; -74548503610300189000; 0; -16566334135622264200; 0; 0; 0; 0;
  0; 0; 0; 0; -41415835339055660600; 0; 165663341356222642000; 0; 0; 0; 0; 0;
  0; 0; 0; 0; 0; -1479136976394845020; 0; 41415835339055660600; 0; -82831670678111321100; 0; 0;
  0; 0; 0; 0; 0; 0; 0; 0; 0; 0; 0; 0;
  158126394107949853; 0; 0; -1265011152863598820; 0; -4427539035022595870; 0; 0; 0; 0; -2213769517511297940; 0;
  39847851315203362900; 0; 8855078070045191750; 0; 0; 0; 0; 0; 0; 0; 0; 22137695175112979400;
  0; -88550780700451917500; 0; 0; 0; 0; 0; 0; 0; 0; 0; 0;
  790631970539749263; 0; -22137695175112979400; 0; 44275390350225958700; 0; 0; 0; 0; 0; 0; 0;
  0; 0; 0; 0; 0; 0; 0; 0; 0; -2371895911619247790; 0; 0;
  0; 0; 33206542762669469100; 0; 11068847587556489700; 0; 0; 0; 0; 0; 0; 0;
  0; -166032713813347345000; 0; 0; 0; 0; 0; 0; 0; 0; 0; 0;
  -33206542762669469100; 0; 166032713813347345000; 0; 0; 0; 0; 0; 0; 0; 0; 0;
  0; 0; 0; 0; 0; 2371895911619247790; 0; -11068847587556489700; 0; 0; 0; 0;
  0; 0; 0; 0; 1060744098786894270; 0; 0; 0; 0; -14850417383016519700; 0; -4950139127672173250;
  0; 0; 0; 0; 0; 0; 0; 0; 74252086915082598700; 0; 0; 0;
  0; 0; 0; 0; 0; 0; 0; 14850417383016519700; 0; -74252086915082598700; 0; 0;
  0; 0; 0; 0; 0; 0; 0; 0; 0; 0; 0; 0;
  -1060744098786894270; 0; 4950139127672173250; 0; 0; 0; 0; 0; 0; 353581366262298089; 0; 0;
  -7071627325245961780; 0; -5657301860196769430; 0; 0; 0; 0; 4950139127672173250; 0; 118803339064132158000; 0; 0;
  0; 0; 0; 0; 0; 0; 9900278255344346500; 0; -198005565106886930000; 0; 0; 0;
  0; 0; 0; 0; 0; 0; 0; 0; 0; -2475069563836086620; 0; 39601113021377386000;
  0; 0; 0; 0; 0; 0; 0; 0; 0; 0; 0; 0;
  0; 0; 0; 0; -125009890892637666; 0; 0; 2500197817852753320; 0; 2000158254282202660; 0; 0;
  0; 0; -1750138472496927320; 0; -42003323339926255800; 0; 0; 0; 0; 0; 0; 0;
  0; -3500276944993854650; 0; 70005538899877093000; 0; 0; 0; 0; 0; 0; 0; 0;
  0; 0; 0; 0; 875069236248463662; 0; -14001107779975418600; 0; 0; 0; 0; 0;
  0; 0; 0; 0; 0; 0; 0; 0; 0; 0; 0; 0;
  0; 2125168145174840320; 0; 0; 0; 0; -59504708064895529000; 0; 0; 0; 0; 0;
  0; 0; 0; 148761770162238823000; 0; 0; 0; 0; 0; 0; 0; 0;
  0; 0; 0; 0; -59504708064895529000; 0; 0; 0; 0; 0; 0; 0;
  0; 0; 0; 0; 0; 0; 0; 0; 0; 2125168145174840320; 0; 0;
  0; 0; 0; 0; 0; 0; 0; 0; -515428984397284310; 0; 0; 0;
  0; 14432011563123960700; 0; 0; 0; 0; 0; 0; 0; 0; -36080028907809901700; 0;
  0; 0; 0; 0; 0; 0; 0; 0; 0; 0; 0; 14432011563123960700;
  0; 0; 0; 0; 0; 0; 0; 0; 0; 0; 0; 0;
  0; 0; 0; 0; -515428984397284310; 0; 0; 0; 0; 0; 0; 0;
  0; -515428984397284310; 0; 0; 18555443438302235200; 0; 0; 0; 0; 0; 0; -64944052034057823000;
  0; 0; 0; 0; 0; 0; 0; 0; 0; 0; 43296034689371882000; 0;
  0; 0; 0; 0; 0; 0; 0; 0; 0; 0; 0; 0;
  0; -4638860859575558790; 0; 0; 0; 0; 0; 0; 0; 0; 0; 0;
  0; 0; 0; 0; 0; 0; 0; 0; 0; 0; 0; 0;
  0; 0; 0; 0; 0; 0; 0; 0; 0; 0; 0; 0;
  0; 0; 0; 0; 0; 0; 0; 0; 0; 0; 0; 0;
  0; 0; 0; 0; 0; 0; 0; 0; 0; 0; 0; 0;
  0; 0; 0; 0; 0; 0; 0; 0; 0; 0; 0; 0;
  0; 0; 0; 529552941492449580; 0; 0; -19063905893728184900; 0; 0; 0; 0; 0;
  0; 66723670628048647000; 0; 0; 0; 0; 0; 0; 0; 0; 0; 0;
  -44482447085365764700; 0; 0; 0; 0; 0; 0; 0; 0; 0; 0; 0;
  0; 0; 0; 4765976473432046220; 0; 0; 0; 0; 0; 0; 0; 0;
  0; 0; 0; 0; 0; 0; 0; 0; 0; 0; 121487776695804978; 0;
  0; -4373559961048979210; 0; 0; 0; 0; 0; 0; 15307459863671427200; 0; 0; 0;
  0; 0; 0; 0; 0; 0; 0; -10204973242447618200; 0; 0; 0; 0;
  0; 0; 0; 0; 0; 0; 0; 0; 0; 0; 1093389990262244800; 0;
  0; 0; 0; 0; 0; 0; 0; 0; 0; 0; 0; 0;
  0; 0; 0; 0; 0; 0; 0; 2186779980524489610; 0; 0; 0; 0;
  -61229839454685709000; 0; 0; 0; 0; 0; 0; 0; 0; 153074598636714272000; 0; 0;
  0; 0; 0; 0; 0; 0; 0; 0; 0; 0; -61229839454685709000; 0;
  0; 0; 0; 0; 0; 0; 0; 0; 0; 0; 0; 0;
  0; 0; 0; 2186779980524489610; 0; 0; 0; 0; 0; 0; 0; 0;
  0; 0; 728926660174829869; 0; 0; 0; 0; -20409946484895236300; 0; 0; 0; 0;
  0; 0; 0; 0; 51024866212238090800; 0; 0; 0; 0; 0; 0; 0;
  0; 0; 0; 0; 0; -20409946484895236300; 0; 0; 0; 0; 0; 0;
  0; 0; 0; 0; 0; 0; 0; 0; 0; 0; 728926660174829869; 0;
  0; 0; 0; 0; 0; 0; 0; -364463330087414934; 0; 0; 7289266601748298690; 0;
  5831413281398638950; 0; 0; 0; 0; -5102486621223809080; 0; -122459678909371418000; 0; 0; 0; 0;
  0; 0; 0; 0; -10204973242447618200; 0; 204099464848952363000; 0; 0; 0; 0; 0;
  0; 0; 0; 0; 0; 0; 0; 2551243310611904540; 0; -40819892969790472700; 0; 0;
  0; 0; 0; 0; 0; 0; 0; 0; 0; 0; 0; 0;
  0; 0; -153105222743980097; 0; 0; 3062104454879601950; 0; 2449683563903681560; 0; 0; 0; 0;
  -2143473118415721360; 0; -51443354841977312700; 0; 0; 0; 0; 0; 0; 0; 0; -4286946236831442730;
  0; 85738924736628854500; 0; 0; 0; 0; 0; 0; 0; 0; 0; 0;
  0; 0; 1071736559207860680; 0; -17147784947325770900; 0; 0; 0; 0; 0; 0; 0;
  0; 0; 0; 0; 0; 0; 0; 0; 0; 0; 0; -2449683563903681560;
  0; 0; 0; 0; 34295569894651541800; 0; 11431856631550513900; 0; 0; 0; 0; 0;
  0; 0; 0; -171477849473257709000; 0; 0; 0; 0; 0; 0; 0; 0;
  0; 0; -34295569894651541800; 0; 171477849473257709000; 0; 0; 0; 0; 0; 0; 0;
  0; 0; 0; 0; 0; 0; 0; 2449683563903681560; 0; -11431856631550513900; 0; 0;
  0; 0; 0; 0].
Definition g_trans_cart2jR_dec_11 : list Z := [
  0; 0; -1224841781951840780; 0; 0; 0; 0; 17147784947325770900; 0; 5715928315775256970; 0; 0;
  0; 0; 0; 0; 0; 0; -85738924736628854500; 0; 0; 0; 0; 0;
  0; 0; 0; 0; 0; -17147784947325770900; 0; 85738924736628854500; 0; 0; 0; 0;
  0; 0; 0; 0; 0; 0; 0; 0; 0; 0; 1224841781951840780; 0;
  -5715928315775256970; 0; 0; 0; 0; 0; 0; 306210445487960195; 0; 0; -2449683563903681560; 0;
  -8573892473662885450; 0; 0; 0; 0; -4286946236831442730; 0; 77165032262965969100; 0; 17147784947325770900; 0; 0;
  0; 0; 0; 0; 0; 0; 42869462368314427300; 0; -171477849473257709000; 0; 0; 0;
  0; 0; 0; 0; 0; 0; 0; 1531052227439800970; 0; -42869462368314427300; 0; 85738924736628854500;
  0; 0; 0; 0; 0; 0; 0; 0; 0; 0; 0; 0;
  0; 0; 176790683131149045; 0; 0; -1414325465049192360; 0; -4950139127672173250; 0; 0; 0; 0;
  -2475069563836086620; 0; 44551252149049559200; 0; 9900278255344346500; 0; 0; 0; 0; 0; 0; 0;
  0; 24750695638360866200; 0; -99002782553443465000; 0; 0; 0; 0; 0; 0; 0; 0;
  0; 0; 883953415655745223; 0; -24750695638360866200; 0; 49501391276721732500; 0; 0; 0; 0; 0;
  0; 0; 0; 0; 0; 0; 0; 0; 0; 0; 0; 2475069563836086620;
  0; 0; 0; 0; -9900278255344346500; 0; -19800556510688693000; 0; 0; 0; 0; 0;
  0; -24750695638360866200; 0; 99002782553443465000; 0; 19800556510688693000; 0; 0; 0; 0; 0; 0;
  0; 0; -9900278255344346500; 0; 99002782553443465000; 0; -118803339064132158000; 0; 0; 0; 0; 0;
  0; 0; 0; 0; 0; 0; 0; 2475069563836086620; 0; -19800556510688693000; 0; 19800556510688693000;
  0; 0; 0; 0; 0; 0; 1620313375222886070; 0; 0; 0; 0; -6481253500891544270;
  0; -12962507001783088500; 0; 0; 0; 0; 0; 0; -16203133752228860700; 0; 64812535008915442700; 0;
  12962507001783088500; 0; 0; 0; 0; 0; 0; 0; 0; -6481253500891544270; 0; 64812535008915442700;
  0; -77775042010698531200; 0; 0; 0; 0; 0; 0; 0; 0; 0; 0;
  0; 0; 1620313375222886070; 0; -12962507001783088500; 0; 12962507001783088500; 0; 0; 0; 0; -270052229203814345;
  0; 0; 0; 0; 9721880251337316400; 0; 0; 0; 0; 1620313375222886070; 0; -9721880251337316400;
  0; -32406267504457721300; 0; 0; 0; 0; 0; 0; 2160417833630514760; 0; -48609401256686582000; 0;
  64812535008915442700; 0; 17283342669044118100; 0; 0; 0; 0; 0; 0; 0; 0; 810156687611443034;
  0; -29165640754011949200; 0; 97218802513373164000; 0; -51850028007132354200; 0; 0; 0; 0; 0; 0;
  0; 0; 0; 0; 0; 0; -198164159898117403; 0; 0; 0; 0; 7133909756332226510;
  0; 0; 0; 0; 1188984959388704420; 0; -7133909756332226510; 0; -23779699187774088400; 0; 0; 0;
  0; 0; 0; 1585313279184939220; 0; -35669548781661132600; 0; 47559398375548176700; 0; 12682506233479513800; 0; 0;
  0; 0; 0; 0; 0; 0; 594492479694352209; 0; -21401729268996679500; 0; 71339097563322265100; 0;
  -38047518700438541400; 0; 0; 0; 0; 0; 0; 0; 0; 0; 0; 0;
  0; 0; 0; -2377969918777408840; 0; 0; 0; 0; -4755939837554817670; 0; 23779699187774088400; 0;
  0; 0; 0; 0; 0; 0; 0; 23779699187774088400; 0; -38047518700438541400; 0; 0;
  0; 0; 0; 0; 0; 0; 4755939837554817670; 0; -23779699187774088400; 0; 0; 0;
  10870719628696726100; 0; 0; 0; 0; 0; 0; 0; 0; 0; 0; 2377969918777408840;
  0; -23779699187774088400; 0; 38047518700438541400; 0; -10870719628696726100; 0; 0; 0; 0; -1941604308230736700; 0;
  0; 0; 0; -3883208616461473390; 0; 19416043082307367000; 0; 0; 0; 0; 0; 0;
  0; 0; 19416043082307367000; 0; -31065668931691787100; 0; 0; 0; 0; 0; 0; 0;
  0; 3883208616461473390; 0; -19416043082307367000; 0; 0; 0; 8875905409054796320; 0; 0; 0; 0;
  0; 0; 0; 0; 0; 0; 1941604308230736700; 0; -19416043082307367000; 0; 31065668931691787100; 0;
  -8875905409054796320; 0; 0; 242700538528842087; 0; 0; 970802154115368348; 0; -9708021541153683480; 0; 0; 0;
  0; 1456203231173052520; 0; -29124064623461050400; 0; 38832086164614733900; 0; 0; 0; 0; 0; 0;
  970802154115368348; 0; -29124064623461050400; 0; 77664172329229467800; 0; -31065668931691787100; 0; 0; 0; 0; 0;
  0; 0; 0; 242700538528842087; 0; -9708021541153683480; 0; 38832086164614733900; 0; -31065668931691787100; 0; 4437952704527398160;
  0; 0; 0; 0; 0; 0; 0; 0; 0; 0; 219530897104735508; 0;
  0; 878123588418942033; 0; -8781235884189420330; 0; 0; 0; 0; 1317185382628413050; 0; -26343707652568261000; 0;
  35124943536757681300; 0; 0; 0; 0; 0; 0; 878123588418942033; 0; -26343707652568261000; 0; 70249887073515362600;
  0; -28099954829406145100; 0; 0; 0; 0; 0; 0; 0; 0; 219530897104735508; 0;
  -8781235884189420330; 0; 35124943536757681300; 0; -28099954829406145100; 0; 4014279261343735010; 0; 0; 0; 0; 0;
  0; 0; 0; 0; 0; 0; 0; 2195308971047355080; 0; 0; 0; 0;
  8781235884189420330; 0; -23416629024505120900; 0; 0; 0; 0; 0; 0; 13171853826284130500; 0; -70249887073515362600;
  0; 42149932244109217600; 0; 0; 0; 0; 0; 0; 0; 0; 8781235884189420330; 0;
  -70249887073515362600; 0; 84299864488218435200; 0; -16057117045374940000; 0; 0; 0; 0; 0; 0; 0;
  0; 0; 0; 2195308971047355080; 0; -23416629024505120900; 0; 42149932244109217600; 0; -16057117045374940000; 0; 892062058076385557;
  0; 0; 2195308971047355080; 0; 0; 0; 0; 8781235884189420330; 0; -23416629024505120900; 0; 0;
  0; 0; 0; 0; 13171853826284130500; 0; -70249887073515362600; 0; 42149932244109217600; 0; 0; 0;
  0; 0; 0; 0; 0; 8781235884189420330; 0; -70249887073515362600; 0; 84299864488218435200; 0; -16057117045374940000;
  0; 0; 0; 0; 0; 0; 0; 0; 0; 0; 2195308971047355080; 0;
  -23416629024505120900; 0; 42149932244109217600; 0; -16057117045374940000; 0; 892062058076385557; -219530897104735508; 0; 0; -878123588418942033; 0;
  8781235884189420330; 0; 0; 0; 0; -1317185382628413050; 0; 26343707652568261000; 0; -35124943536757681300; 0; 0;
  0; 0; 0; 0; -878123588418942033; 0; 26343707652568261000; 0; -70249887073515362600; 0; 28099954829406145100; 0;
  0; 0; 0; 0; 0; 0; 0; -219530897104735508; 0; 8781235884189420330; 0; -35124943536757681300;
  0; 28099954829406145100; 0; -4014279261343735010; 0; 0; 0; 0; 0; 0; 0; 0;
  0; 0; -242700538528842087; 0; 0; -970802154115368348; 0; 9708021541153683480; 0; 0; 0; 0;
  -1456203231173052520; 0; 29124064623461050400; 0; -38832086164614733900; 0; 0; 0; 0; 0; 0; -970802154115368348;
  0; 29124064623461050400; 0; -77664172329229467800; 0; 31065668931691787100; 0; 0; 0; 0; 0; 0;
  0; 0; -242700538528842087; 0; 9708021541153683480; 0; -38832086164614733900; 0; 31065668931691787100; 0; -4437952704527398160; 0;
  0; 0; 0; 0; 0; 0; 0; 0; 0; 0; 0; -1941604308230736700;
  0; 0; 0; 0; -3883208616461473390; 0; 19416043082307367000; 0; 0; 0; 0; 0;
  0; 0; 0; 19416043082307367000; 0; -31065668931691787100; 0; 0; 0; 0; 0; 0;
  0; 0; 3883208616461473390; 0; -19416043082307367000; 0; 0; 0; 8875905409054796320; 0; 0; 0;
  0; 0; 0; 0; 0; 0; 0; 1941604308230736700; 0; -19416043082307367000; 0; 31065668931691787100;
  0; -8875905409054796320; 0; 0; 0; 0; -2377969918777408840; 0; 0; 0; 0; -4755939837554817670;
  0; 23779699187774088400; 0; 0; 0; 0; 0; 0; 0; 0; 23779699187774088400; 0;
  -38047518700438541400; 0; 0; 0; 0; 0; 0; 0; 0; 4755939837554817670; 0; -23779699187774088400;
  0; 0; 0; 10870719628696726100; 0; 0; 0; 0; 0; 0; 0; 0;
  0; 0; 2377969918777408840; 0; -23779699187774088400; 0; 38047518700438541400; 0; -10870719628696726100; 0; 0; 198164159898117403;
  0; 0; 0; 0; -7133909756332226510; 0; 0; 0; 0; -1188984959388704420; 0; 7133909756332226510;
  0; 23779699187774088400; 0; 0; 0; 0; 0; 0; -1585313279184939220; 0; 35669548781661132600; 0;
  -47559398375548176700; 0; -12682506233479513800; 0; 0; 0; 0; 0; 0; 0; 0; -594492479694352209;
  0; 21401729268996679500; 0; -71339097563322265100; 0; 38047518700438541400; 0; 0; 0; 0; 0; 0;
  0; 0; 0; 0; 0; 0; 270052229203814345; 0; 0; 0; 0; -9721880251337316400;
  0; 0; 0; 0].
Definition g_trans_cart2jR_dec_12 : list Z := [
  -1620313375222886070; 0; 9721880251337316400; 0; 32406267504457721300; 0; 0; 0; 0; 0; 0; -2160417833630514760;
  0; 48609401256686582000; 0; -64812535008915442700; 0; -17283342669044118100; 0; 0; 0; 0; 0; 0;
  0; 0; -810156687611443034; 0; 29165640754011949200; 0; -97218802513373164000; 0; 51850028007132354200; 0; 0; 0;
  0; 0; 0; 0; 0; 0; 0; 0; 0; 0; 0; 1620313375222886070;
  0; 0; 0; 0; -6481253500891544270; 0; -12962507001783088500; 0; 0; 0; 0; 0;
  0; -16203133752228860700; 0; 64812535008915442700; 0; 12962507001783088500; 0; 0; 0; 0; 0; 0;
  0; 0; -6481253500891544270; 0; 64812535008915442700; 0; -77775042010698531200; 0; 0; 0; 0; 0;
  0; 0; 0; 0; 0; 0; 0; 1620313375222886070; 0; -12962507001783088500; 0; 12962507001783088500;
  0; 0; 0; 0; 0; 0; 2475069563836086620; 0; 0; 0; 0; -9900278255344346500;
  0; -19800556510688693000; 0; 0; 0; 0; 0; 0; -24750695638360866200; 0; 99002782553443465000; 0;
  19800556510688693000; 0; 0; 0; 0; 0; 0; 0; 0; -9900278255344346500; 0; 99002782553443465000;
  0; -118803339064132158000; 0; 0; 0; 0; 0; 0; 0; 0; 0; 0;
  0; 0; 2475069563836086620; 0; -19800556510688693000; 0; 19800556510688693000; 0; 0; 0; 0; -176790683131149045;
  0; 0; 1414325465049192360; 0; 4950139127672173250; 0; 0; 0; 0; 2475069563836086620; 0; -44551252149049559200;
  0; -9900278255344346500; 0; 0; 0; 0; 0; 0; 0; 0; -24750695638360866200; 0;
  99002782553443465000; 0; 0; 0; 0; 0; 0; 0; 0; 0; 0; -883953415655745223;
  0; 24750695638360866200; 0; -49501391276721732500; 0; 0; 0; 0; 0; 0; 0; 0;
  0; 0; 0; 0; 0; 0; -306210445487960195; 0; 0; 2449683563903681560; 0; 8573892473662885450;
  0; 0; 0; 0; 4286946236831442730; 0; -77165032262965969100; 0; -17147784947325770900; 0; 0; 0;
  0; 0; 0; 0; 0; -42869462368314427300; 0; 171477849473257709000; 0; 0; 0; 0;
  0; 0; 0; 0; 0; 0; -1531052227439800970; 0; 42869462368314427300; 0; -85738924736628854500; 0;
  0; 0; 0; 0; 0; 0; 0; 0; 0; 0; 0; 0;
  0; 0; 0; -1224841781951840780; 0; 0; 0; 0; 17147784947325770900; 0; 5715928315775256970; 0;
  0; 0; 0; 0; 0; 0; 0; -85738924736628854500; 0; 0; 0; 0;
  0; 0; 0; 0; 0; 0; -17147784947325770900; 0; 85738924736628854500; 0; 0; 0;
  0; 0; 0; 0; 0; 0; 0; 0; 0; 0; 0; 1224841781951840780;
  0; -5715928315775256970; 0; 0; 0; 0; 0; 0; 0; 0; -2449683563903681560; 0;
  0; 0; 0; 34295569894651541800; 0; 11431856631550513900; 0; 0; 0; 0; 0; 0;
  0; 0; -171477849473257709000; 0; 0; 0; 0; 0; 0; 0; 0; 0;
  0; -34295569894651541800; 0; 171477849473257709000; 0; 0; 0; 0; 0; 0; 0; 0;
  0; 0; 0; 0; 0; 0; 2449683563903681560; 0; -11431856631550513900; 0; 0; 0;
  0; 0; 0; 153105222743980097; 0; 0; -3062104454879601950; 0; -2449683563903681560; 0; 0; 0;
  0; 2143473118415721360; 0; 51443354841977312700; 0; 0; 0; 0; 0; 0; 0; 0;
  4286946236831442730; 0; -85738924736628854500; 0; 0; 0; 0; 0; 0; 0; 0; 0;
  0; 0; 0; -1071736559207860680; 0; 17147784947325770900; 0; 0; 0; 0; 0; 0;
  0; 0; 0; 0; 0; 0; 0; 0; 0; 0; 364463330087414934; 0;
  0; -7289266601748298690; 0; -5831413281398638950; 0; 0; 0; 0; 5102486621223809080; 0; 122459678909371418000; 0;
  0; 0; 0; 0; 0; 0; 0; 10204973242447618200; 0; -204099464848952363000; 0; 0;
  0; 0; 0; 0; 0; 0; 0; 0; 0; 0; -2551243310611904540; 0;
  40819892969790472700; 0; 0; 0; 0; 0; 0; 0; 0; 0; 0; 0;
  0; 0; 0; 0; 0; 0; 0; 728926660174829869; 0; 0; 0; 0;
  -20409946484895236300; 0; 0; 0; 0; 0; 0; 0; 0; 51024866212238090800; 0; 0;
  0; 0; 0; 0; 0; 0; 0; 0; 0; 0; -20409946484895236300; 0;
  0; 0; 0; 0; 0; 0; 0; 0; 0; 0; 0; 0;
  0; 0; 0; 728926660174829869; 0; 0; 0; 0; 0; 0; 0; 0;
  0; 0; 2186779980524489610; 0; 0; 0; 0; -61229839454685709000; 0; 0; 0; 0;
  0; 0; 0; 0; 153074598636714272000; 0; 0; 0; 0; 0; 0; 0;
  0; 0; 0; 0; 0; -61229839454685709000; 0; 0; 0; 0; 0; 0;
  0; 0; 0; 0; 0; 0; 0; 0; 0; 0; 2186779980524489610; 0;
  0; 0; 0; 0; 0; 0; 0; -121487776695804978; 0; 0; 4373559961048979210; 0;
  0; 0; 0; 0; 0; -15307459863671427200; 0; 0; 0; 0; 0; 0;
  0; 0; 0; 0; 10204973242447618200; 0; 0; 0; 0; 0; 0; 0;
  0; 0; 0; 0; 0; 0; 0; -1093389990262244800; 0; 0; 0; 0;
  0; 0; 0; 0; 0; 0; 0; 0; 0; 0; 0; 0;
  0; 0; -529552941492449580; 0; 0; 19063905893728184900; 0; 0; 0; 0; 0; 0;
  -66723670628048647000; 0; 0; 0; 0; 0; 0; 0; 0; 0; 0; 44482447085365764700;
  0; 0; 0; 0; 0; 0; 0; 0; 0; 0; 0; 0;
  0; 0; -4765976473432046220; 0; 0; 0; 0; 0; 0; 0; 0; 0;
  0; 0; 0; 0; 0; 0; 0; 0; 0; 0; 0; 0;
  0; 0; 0; 0; 0; 0; 0; 0; 0; 0; 0; 0;
  0; 0; 0; 0; 0; 0; 0; 0; 0; 0; 0; 0;
  0; 0; 0; 0; 0; 0; 0; 0; 0; 0; 0; 0;
  0; 0; 0; 0; 0; 0; 0; 0; 0; 0; 0; 0;
  0; 0; 0; 0; -529552941492449580; 0; 0; 23829882367160231100; 0; 0; 0; 0;
  0; 0; -111206117713414412000; 0; 0; 0; 0; 0; 0; 0; 0; 0;
  0; 111206117713414412000; 0; 0; 0; 0; 0; 0; 0; 0; 0; 0;
  0; 0; 0; 0; -23829882367160231100; 0; 0; 0; 0; 0; 0; 0;
  0; 0; 0; 0; 0; 0; 0; 0; 0; 0; 0; 529552941492449580;
  0; 0; 0; 0; 0; 0; 0; 0; 0; 0; 0; 0;
  529552941492449580; 0; 0; 0; 0; -19063905893728184900; 0; 0; 0; 0; 0; 0;
  0; 0; 66723670628048647000; 0; 0; 0; 0; 0; 0; 0; 0; 0;
  0; 0; 0; -44482447085365764700; 0; 0; 0; 0; 0; 0; 0; 0;
  0; 0; 0; 0; 0; 0; 0; 0; 4765976473432046220; 0; 0; 0;
  0; 0; 0; 0; 0; 0; 0; 0; 0; 0; 0; 0;
  0; 0; 0; 0; 0; 0; -2308267757220294580; 0; 0; 0; 0; 83097639259930605100;
  0; 0; 0; 0; 0; 0; 0; 0; -290841737409757118000; 0; 0; 0;
  0; 0; 0; 0; 0; 0; 0; 0; 0; 193894491606504745000; 0; 0;
  0; 0; 0; 0; 0; 0; 0; 0; 0; 0; 0; 0;
  0; 0; -20774409814982651300; 0; 0; 0; 0; 0; 0; 0; 0; 0;
  0; 0; 0; 0; 0; 0; 0; 0; 0; 0; -121487776695804978; 0;
  0; 3280169970786734410; 0; 2186779980524489610; 0; 0; 0; 0; -5102486621223809080; 0; -61229839454685709000; 0;
  0; 0; 0; 0; 0; 0; 0; -5102486621223809080; 0; 153074598636714272000; 0; 0;
  0; 0; 0; 0; 0; 0; 0; 0; 0; 0; 3280169970786734410; 0;
  -61229839454685709000; 0; 0; 0].
Definition g_trans_cart2jR_dec_13 : list Z := [
  0; 0; 0; 0; 0; 0; 0; 0; 0; 0; 0; 0;
  0; -121487776695804978; 0; 2186779980524489610; 0; 0; 0; 0; 0; 0; 0; 0;
  364463330087414934; 0; 0; -9840509912360203230; 0; -6560339941573468820; 0; 0; 0; 0; 15307459863671427200; 0;
  183689518364057127000; 0; 0; 0; 0; 0; 0; 0; 0; 15307459863671427200; 0; -459223795910142817000;
  0; 0; 0; 0; 0; 0; 0; 0; 0; 0; 0; 0;
  -9840509912360203230; 0; 183689518364057127000; 0; 0; 0; 0; 0; 0; 0; 0; 0;
  0; 0; 0; 0; 0; 0; 0; 364463330087414934; 0; -6560339941573468820; 0; 0;
  0; 0; 0; 0; 0; 0; 0; 0; -1093389990262244800; 0; 0; 0;
  0; 21867799805244896100; 0; 5831413281398638950; 0; 0; 0; 0; 0; 0; -15307459863671427200; 0;
  -122459678909371418000; 0; 0; 0; 0; 0; 0; 0; 0; 0; 0; -30614919727342854500;
  0; 204099464848952363000; 0; 0; 0; 0; 0; 0; 0; 0; 0; 0;
  0; 0; 0; 0; 7653729931835713620; 0; -40819892969790472700; 0; 0; 0; 0; 0;
  0; 0; 0; 0; 0; 0; 0; 0; 0; 0; 0; 0;
  0; 0; 2602788786647661660; 0; 0; 0; 0; -52055775732953233100; 0; -13881540195454195500; 0; 0;
  0; 0; 0; 0; 36439043013067263200; 0; 291512344104538105000; 0; 0; 0; 0; 0;
  0; 0; 0; 0; 0; 72878086026134526400; 0; -485853906840896842000; 0; 0; 0; 0;
  0; 0; 0; 0; 0; 0; 0; 0; 0; 0; -18219521506533631600; 0;
  97170781368179368500; 0; 0; 0; 0; 0; 0; 0; 0; 0; 0; 0;
  0; 0; 0; 0; 0; 0; 153105222743980097; 0; 0; -1990367895671741270; 0; -4899367127807363120;
  0; 0; 0; 0; -2143473118415721360; 0; 68591139789303083600; 0; 11431856631550513900; 0; 0; 0;
  0; 0; 0; 2143473118415721360; 0; 0; 0; -171477849473257709000; 0; 0; 0; 0;
  0; 0; 0; 0; 0; 0; 1990367895671741270; 0; -68591139789303083600; 0; 171477849473257709000; 0;
  0; 0; 0; 0; 0; 0; 0; 0; 0; 0; 0; 0;
  0; -153105222743980097; 0; 4899367127807363120; 0; -11431856631550513900; 0; 0; 0; 0; 0; 0;
  -306210445487960195; 0; 0; 3980735791343482530; 0; 9798734255614726230; 0; 0; 0; 0; 4286946236831442730; 0;
  -137182279578606167000; 0; -22863713263101027900; 0; 0; 0; 0; 0; 0; -4286946236831442730; 0; 0;
  0; 342955698946515418000; 0; 0; 0; 0; 0; 0; 0; 0; 0; 0;
  -3980735791343482530; 0; 137182279578606167000; 0; -342955698946515418000; 0; 0; 0; 0; 0; 0; 0;
  0; 0; 0; 0; 0; 0; 0; 306210445487960195; 0; -9798734255614726230; 0; 22863713263101027900;
  0; 0; 0; 0; 0; 0; 0; 0; 1531052227439800970; 0; 0; 0;
  0; -12248417819518407800; 0; -14289820789438142400; 0; 0; 0; 0; 0; 0; -21434731184157213600; 0;
  128608387104943282000; 0; 17147784947325770900; 0; 0; 0; 0; 0; 0; 0; 0; 0;
  0; 71449103947190712100; 0; -171477849473257709000; 0; 0; 0; 0; 0; 0; 0; 0;
  0; 0; 0; 0; 7655261137199004870; 0; -71449103947190712100; 0; 85738924736628854500; 0; 0; 0;
  0; 0; 0; 0; 0; 0; 0; 0; 0; 0; 0; 0;
  0; 0; -2651860246967235670; 0; 0; 0; 0; 21214881975737885300; 0; 24750695638360866200; 0; 0;
  0; 0; 0; 0; 37126043457541299400; 0; -222756260745247796000; 0; -29700834766033039500; 0; 0; 0;
  0; 0; 0; 0; 0; 0; 0; -123753478191804331000; 0; 297008347660330395000; 0; 0;
  0; 0; 0; 0; 0; 0; 0; 0; 0; 0; -13259301234836178300; 0;
  123753478191804331000; 0; -148504173830165197000; 0; 0; 0; 0; 0; 0; 0; 0; 0;
  0; 0; 0; 0; 0; 0; -176790683131149045; 0; 0; 530372049393447134; 0; 7425208691508259870;
  0; 0; 0; 0; 2475069563836086620; 0; -29700834766033039500; 0; -29700834766033039500; 0; 0; 0;
  0; 0; 0; 2475069563836086620; 0; -74252086915082598700; 0; 148504173830165197000; 0; 19800556510688693000; 0; 0;
  0; 0; 0; 0; 0; 0; 530372049393447134; 0; -29700834766033039500; 0; 148504173830165197000; 0;
  -118803339064132158000; 0; 0; 0; 0; 0; 0; 0; 0; 0; 0; 0;
  0; -176790683131149045; 0; 7425208691508259870; 0; -29700834766033039500; 0; 19800556510688693000; 0; 0; 0; 0;
  270052229203814345; 0; 0; -810156687611443034; 0; -11342193626560202500; 0; 0; 0; 0; -3780731208853400820; 0;
  45368774506240809900; 0; 45368774506240809900; 0; 0; 0; 0; 0; 0; -3780731208853400820; 0; 113421936265602025000;
  0; -226843872531204049000; 0; -30245849670827206600; 0; 0; 0; 0; 0; 0; 0; 0;
  -810156687611443034; 0; 45368774506240809900; 0; -226843872531204049000; 0; 181475098024963240000; 0; 0; 0; 0; 0;
  0; 0; 0; 0; 0; 0; 0; 270052229203814345; 0; -11342193626560202500; 0; 45368774506240809900;
  0; -30245849670827206600; 0; 0; 0; 0; 0; 0; -1890365604426700410; 0; 0; 0;
  0; 0; 0; 22684387253120404900; 0; 0; 0; 0; 0; 0; 11342193626560202500; 0;
  -22684387253120404900; 0; -45368774506240809900; 0; 0; 0; 0; 0; 0; 0; 0; 15122924835413603300;
  0; -113421936265602025000; 0; 90737549012481619800; 0; 17283342669044118100; 0; 0; 0; 0; 0; 0;
  0; 0; 0; 0; 5671096813280101240; 0; -68053161759361214800; 0; 136106323518722430000; 0; -51850028007132354200; 0;
  0; 0; 0; 0; 0; 0; 0; 0; 0; 0; 0; 0;
  0; 0; 2576134078675526240; 0; 0; 0; 0; 0; 0; -30913608944106314900; 0; 0;
  0; 0; 0; 0; -15456804472053157400; 0; 30913608944106314900; 0; 61827217888212629800; 0; 0; 0;
  0; 0; 0; 0; 0; -20609072629404209900; 0; 154568044720531574000; 0; -123654435776425260000; 0; -23553225862176239900;
  0; 0; 0; 0; 0; 0; 0; 0; 0; 0; -7728402236026578720; 0;
  92740826832318944600; 0; -185481653664637889000; 0; 70659677586528719700; 0; 0; 0; 0; 0; 0; 0;
  0; 0; 0; 0; 0; 0; 198164159898117403; 0; 0; 594492479694352209; 0; -9511879675109635350;
  0; 0; 0; 0; 396328319796234806; 0; -19023759350219270700; 0; 47559398375548176700; 0; 0; 0;
  0; 0; 0; -396328319796234806; 0; 0; 0; 47559398375548176700; 0; -50730024933918055200; 0; 0;
  0; 0; 0; 0; 0; 0; -594492479694352209; 0; 19023759350219270700; 0; -47559398375548176700; 0;
  0; 0; 10870719628696726100; 0; 0; 0; 0; 0; 0; 0; 0; 0;
  0; -198164159898117403; 0; 9511879675109635350; 0; -47559398375548176700; 0; 50730024933918055200; 0; -10870719628696726100; 0; 0;
  -242700538528842087; 0; 0; -728101615586526261; 0; 11649625849384420200; 0; 0; 0; 0; -485401077057684174; 0;
  23299251698768840300; 0; -58248129246922100900; 0; 0; 0; 0; 0; 0; 485401077057684174; 0; 0;
  0; -58248129246922100900; 0; 62131337863383574200; 0; 0; 0; 0; 0; 0; 0; 0;
  728101615586526261; 0; -23299251698768840300; 0; 58248129246922100900; 0; 0; 0; -13313858113582194500; 0; 0; 0;
  0; 0; 0; 0; 0; 0; 0; 242700538528842087; 0; -11649625849384420200; 0; 58248129246922100900;
  0; -62131337863383574200; 0; 13313858113582194500; 0; 0; 0; 0; 2184304846759578780; 0; 0; 0;
  0; 8737219387038315130; 0; -29124064623461050400; 0; 0; 0; 0; 0; 0; 13105829080557472700; 0;
  -87372193870383151300; 0; 69897755096306521000; 0; 0; 0; 0; 0; 0; 0; 0; 8737219387038315130;
  0; -87372193870383151300; 0; 139795510192613042000; 0; -39941574340746583400; 0; 0; 0; 0; 0; 0;
  0; 0; 0; 0; 2184304846759578780; 0; -29124064623461050400; 0; 69897755096306521000; 0; -39941574340746583400; 0;
  4437952704527398160; 0; 0; 0; 0; 0; 0; 0; 0; 0; 0; 0;
  0; 0; -2414839868152090590; 0; 0; 0; 0; -9659359472608362360; 0; 32197864908694541200; 0; 0;
  0; 0; 0; 0; -14489039208912543500; 0; 96593594726083623600; 0; -77274875780866898900; 0; 0; 0;
  0; 0; 0; 0; 0; -9659359472608362360; 0; 96593594726083623600; 0; -154549751561733798000; 0; 44157071874781085100;
  0; 0; 0; 0; 0; 0; 0; 0; 0; 0; -2414839868152090590; 0;
  32197864908694541200; 0; -77274875780866898900; 0].
Definition g_trans_cart2jR_dec_14 : list Z := [
  44157071874781085100; 0; -4906341319420120560; 0; 0; 0; 0; 0; 0; 0; 0; 0;
  0; 0; -219530897104735508; 0; 0; -1097654485523677540; 0; 10976544855236775400; 0; 0; 0; 0;
  -2195308971047355080; 0; 43906179420947101600; 0; -58541572561262802200; 0; 0; 0; 0; 0; 0; -2195308971047355080;
  0; 65859269131420652500; 0; -175624717683788407000; 0; 70249887073515362600; 0; 0; 0; 0; 0; 0;
  0; 0; -1097654485523677540; 0; 43906179420947101600; 0; -175624717683788407000; 0; 140499774147030725000; 0; -20071396306718675000; 0;
  0; 0; 0; 0; 0; 0; 0; 0; 0; -219530897104735508; 0; 10976544855236775400;
  0; -58541572561262802200; 0; 70249887073515362600; 0; -20071396306718675000; 0; 892062058076385557; 219530897104735508; 0; 0; 1097654485523677540;
  0; -10976544855236775400; 0; 0; 0; 0; 2195308971047355080; 0; -43906179420947101600; 0; 58541572561262802200; 0;
  0; 0; 0; 0; 0; 2195308971047355080; 0; -65859269131420652500; 0; 175624717683788407000; 0; -70249887073515362600;
  0; 0; 0; 0; 0; 0; 0; 0; 1097654485523677540; 0; -43906179420947101600; 0;
  175624717683788407000; 0; -140499774147030725000; 0; 20071396306718675000; 0; 0; 0; 0; 0; 0; 0;
  0; 0; 0; 219530897104735508; 0; -10976544855236775400; 0; 58541572561262802200; 0; -70249887073515362600; 0; 20071396306718675000;
  0; -892062058076385557; 0; 0; -2414839868152090590; 0; 0; 0; 0; -9659359472608362360; 0; 32197864908694541200;
  0; 0; 0; 0; 0; 0; -14489039208912543500; 0; 96593594726083623600; 0; -77274875780866898900; 0;
  0; 0; 0; 0; 0; 0; 0; -9659359472608362360; 0; 96593594726083623600; 0; -154549751561733798000;
  0; 44157071874781085100; 0; 0; 0; 0; 0; 0; 0; 0; 0; 0;
  -2414839868152090590; 0; 32197864908694541200; 0; -77274875780866898900; 0; 44157071874781085100; 0; -4906341319420120560; 0; 0; 0;
  0; 0; 0; 0; 0; 0; 0; 0; 0; 0; 2184304846759578780; 0;
  0; 0; 0; 8737219387038315130; 0; -29124064623461050400; 0; 0; 0; 0; 0; 0;
  13105829080557472700; 0; -87372193870383151300; 0; 69897755096306521000; 0; 0; 0; 0; 0; 0; 0;
  0; 8737219387038315130; 0; -87372193870383151300; 0; 139795510192613042000; 0; -39941574340746583400; 0; 0; 0; 0;
  0; 0; 0; 0; 0; 0; 2184304846759578780; 0; -29124064623461050400; 0; 69897755096306521000; 0;
  -39941574340746583400; 0; 4437952704527398160; 0; 0; 0; 0; 0; 0; 0; 0; 0;
  0; 0; 242700538528842087; 0; 0; 728101615586526261; 0; -11649625849384420200; 0; 0; 0; 0;
  485401077057684174; 0; -23299251698768840300; 0; 58248129246922100900; 0; 0; 0; 0; 0; 0; -485401077057684174;
  0; 0; 0; 58248129246922100900; 0; -62131337863383574200; 0; 0; 0; 0; 0; 0;
  0; 0; -728101615586526261; 0; 23299251698768840300; 0; -58248129246922100900; 0; 0; 0; 13313858113582194500; 0;
  0; 0; 0; 0; 0; 0; 0; 0; 0; -242700538528842087; 0; 11649625849384420200;
  0; -58248129246922100900; 0; 62131337863383574200; 0; -13313858113582194500; 0; 0; -198164159898117403; 0; 0; -594492479694352209;
  0; 9511879675109635350; 0; 0; 0; 0; -396328319796234806; 0; 19023759350219270700; 0; -47559398375548176700; 0;
  0; 0; 0; 0; 0; 396328319796234806; 0; 0; 0; -47559398375548176700; 0; 50730024933918055200;
  0; 0; 0; 0; 0; 0; 0; 0; 594492479694352209; 0; -19023759350219270700; 0;
  47559398375548176700; 0; 0; 0; -10870719628696726100; 0; 0; 0; 0; 0; 0; 0;
  0; 0; 0; 198164159898117403; 0; -9511879675109635350; 0; 47559398375548176700; 0; -50730024933918055200; 0; 10870719628696726100;
  0; 0; 0; 0; 2576134078675526240; 0; 0; 0; 0; 0; 0; -30913608944106314900;
  0; 0; 0; 0; 0; 0; -15456804472053157400; 0; 30913608944106314900; 0; 61827217888212629800; 0;
  0; 0; 0; 0; 0; 0; 0; -20609072629404209900; 0; 154568044720531574000; 0; -123654435776425260000;
  0; -23553225862176239900; 0; 0; 0; 0; 0; 0; 0; 0; 0; 0;
  -7728402236026578720; 0; 92740826832318944600; 0; -185481653664637889000; 0; 70659677586528719700; 0; 0; 0; 0; 0;
  0; 0; 0; 0; 0; 0; 0; 0; 0; 0; -1890365604426700410; 0;
  0; 0; 0; 0; 0; 22684387253120404900; 0; 0; 0; 0; 0; 0;
  11342193626560202500; 0; -22684387253120404900; 0; -45368774506240809900; 0; 0; 0; 0; 0; 0; 0;
  0; 15122924835413603300; 0; -113421936265602025000; 0; 90737549012481619800; 0; 17283342669044118100; 0; 0; 0; 0;
  0; 0; 0; 0; 0; 0; 5671096813280101240; 0; -68053161759361214800; 0; 136106323518722430000; 0;
  -51850028007132354200; 0; 0; 0; 0; 0; 0; 0; 0; 0; 0; 0;
  0; 0; -270052229203814345; 0; 0; 810156687611443034; 0; 11342193626560202500; 0; 0; 0; 0;
  3780731208853400820; 0; -45368774506240809900; 0; -45368774506240809900; 0; 0; 0; 0; 0; 0; 3780731208853400820;
  0; -113421936265602025000; 0; 226843872531204049000; 0; 30245849670827206600; 0; 0; 0; 0; 0; 0;
  0; 0; 810156687611443034; 0; -45368774506240809900; 0; 226843872531204049000; 0; -181475098024963240000; 0; 0; 0;
  0; 0; 0; 0; 0; 0; 0; 0; 0; -270052229203814345; 0; 11342193626560202500;
  0; -45368774506240809900; 0; 30245849670827206600; 0; 0; 0; 0; 176790683131149045; 0; 0; -530372049393447134;
  0; -7425208691508259870; 0; 0; 0; 0; -2475069563836086620; 0; 29700834766033039500; 0; 29700834766033039500; 0;
  0; 0; 0; 0; 0; -2475069563836086620; 0; 74252086915082598700; 0; -148504173830165197000; 0; -19800556510688693000;
  0; 0; 0; 0; 0; 0; 0; 0; -530372049393447134; 0; 29700834766033039500; 0;
  -148504173830165197000; 0; 118803339064132158000; 0; 0; 0; 0; 0; 0; 0; 0; 0;
  0; 0; 0; 176790683131149045; 0; -7425208691508259870; 0; 29700834766033039500; 0; -19800556510688693000; 0; 0;
  0; 0; 0; 0; -2651860246967235670; 0; 0; 0; 0; 21214881975737885300; 0; 24750695638360866200;
  0; 0; 0; 0; 0; 0; 37126043457541299400; 0; -222756260745247796000; 0; -29700834766033039500; 0;
  0; 0; 0; 0; 0; 0; 0; 0; 0; -123753478191804331000; 0; 297008347660330395000;
  0; 0; 0; 0; 0; 0; 0; 0; 0; 0; 0; 0;
  -13259301234836178300; 0; 123753478191804331000; 0; -148504173830165197000; 0; 0; 0; 0; 0; 0; 0;
  0; 0; 0; 0; 0; 0; 0; 0; 0; 0; 1531052227439800970; 0;
  0; 0; 0; -12248417819518407800; 0; -14289820789438142400; 0; 0; 0; 0; 0; 0;
  -21434731184157213600; 0; 128608387104943282000; 0; 17147784947325770900; 0; 0; 0; 0; 0; 0; 0;
  0; 0; 0; 71449103947190712100; 0; -171477849473257709000; 0; 0; 0; 0; 0; 0;
  0; 0; 0; 0; 0; 0; 7655261137199004870; 0; -71449103947190712100; 0; 85738924736628854500; 0;
  0; 0; 0; 0; 0; 0; 0; 0; 0; 0; 0; 0;
  0; 0; 306210445487960195; 0; 0; -3980735791343482530; 0; -9798734255614726230; 0; 0; 0; 0;
  -4286946236831442730; 0; 137182279578606167000; 0; 22863713263101027900; 0; 0; 0; 0; 0; 0; 4286946236831442730;
  0; 0; 0; -342955698946515418000; 0; 0; 0; 0; 0; 0; 0; 0;
  0; 0; 3980735791343482530; 0; -137182279578606167000; 0; 342955698946515418000; 0; 0; 0; 0; 0;
  0; 0; 0; 0; 0; 0; 0; 0; 0; -306210445487960195; 0; 9798734255614726230;
  0; -22863713263101027900; 0; 0; 0; 0; 0; 0; -153105222743980097; 0; 0; 1990367895671741270;
  0; 4899367127807363120; 0; 0; 0; 0; 2143473118415721360; 0; -68591139789303083600; 0; -11431856631550513900; 0;
  0; 0; 0; 0; 0; -2143473118415721360; 0; 0; 0; 171477849473257709000; 0; 0;
  0; 0; 0; 0; 0; 0; 0; 0; -1990367895671741270; 0; 68591139789303083600; 0;
  -171477849473257709000; 0; 0; 0; 0; 0; 0; 0; 0; 0; 0; 0;
  0; 0; 0; 153105222743980097; 0; -4899367127807363120; 0; 11431856631550513900; 0; 0; 0; 0;
  0; 0; 0; 0; 2602788786647661660; 0; 0; 0; 0; -52055775732953233100; 0; -13881540195454195500;
  0; 0; 0; 0; 0; 0; 36439043013067263200; 0; 291512344104538105000; 0; 0; 0;
  0; 0; 0; 0; 0; 0; 0; 72878086026134526400; 0; -485853906840896842000; 0; 0;
  0; 0; 0; 0; 0; 0; 0; 0; 0; 0; 0; 0;
  -18219521506533631600; 0; 97170781368179368500; 0; 0; 0; 0; 0; 0; 0; 0; 0;
  0; 0; 0; 0].
Definition g_trans_cart2jR_dec_15 : list Z := [
  0; 0; 0; 0; 0; 0; -1093389990262244800; 0; 0; 0; 0; 21867799805244896100;
  0; 5831413281398638950; 0; 0; 0; 0; 0; 0; -15307459863671427200; 0; -122459678909371418000; 0;
  0; 0; 0; 0; 0; 0; 0; 0; 0; -30614919727342854500; 0; 204099464848952363000;
  0; 0; 0; 0; 0; 0; 0; 0; 0; 0; 0; 0;
  0; 0; 7653729931835713620; 0; -40819892969790472700; 0; 0; 0; 0; 0; 0; 0;
  0; 0; 0; 0; 0; 0; 0; 0; 0; 0; -364463330087414934; 0;
  0; 9840509912360203230; 0; 6560339941573468820; 0; 0; 0; 0; -15307459863671427200; 0; -183689518364057127000; 0;
  0; 0; 0; 0; 0; 0; 0; -15307459863671427200; 0; 459223795910142817000; 0; 0;
  0; 0; 0; 0; 0; 0; 0; 0; 0; 0; 9840509912360203230; 0;
  -183689518364057127000; 0; 0; 0; 0; 0; 0; 0; 0; 0; 0; 0;
  0; 0; 0; 0; 0; -364463330087414934; 0; 6560339941573468820; 0; 0; 0; 0;
  0; 0; 0; 0; 121487776695804978; 0; 0; -3280169970786734410; 0; -2186779980524489610; 0; 0;
  0; 0; 5102486621223809080; 0; 61229839454685709000; 0; 0; 0; 0; 0; 0; 0;
  0; 5102486621223809080; 0; -153074598636714272000; 0; 0; 0; 0; 0; 0; 0; 0;
  0; 0; 0; 0; -3280169970786734410; 0; 61229839454685709000; 0; 0; 0; 0; 0;
  0; 0; 0; 0; 0; 0; 0; 0; 0; 0; 0; 121487776695804978;
  0; -2186779980524489610; 0; 0; 0; 0; 0; 0; 0; 0; 0; 0;
  -2308267757220294580; 0; 0; 0; 0; 83097639259930605100; 0; 0; 0; 0; 0; 0;
  0; 0; -290841737409757118000; 0; 0; 0; 0; 0; 0; 0; 0; 0;
  0; 0; 0; 193894491606504745000; 0; 0; 0; 0; 0; 0; 0; 0;
  0; 0; 0; 0; 0; 0; 0; 0; -20774409814982651300; 0; 0; 0;
  0; 0; 0; 0; 0; 0; 0; 0; 0; 0; 0; 0;
  0; 0; 0; 0; 0; 0; 529552941492449580; 0; 0; 0; 0; -19063905893728184900;
  0; 0; 0; 0; 0; 0; 0; 0; 66723670628048647000; 0; 0; 0;
  0; 0; 0; 0; 0; 0; 0; 0; 0; -44482447085365764700; 0; 0;
  0; 0; 0; 0; 0; 0; 0; 0; 0; 0; 0; 0;
  0; 0; 4765976473432046220; 0; 0; 0; 0; 0; 0; 0; 0; 0;
  0; 0; 0; 0; 0; 0; 0; 0; 0; 0; 529552941492449580; 0;
  0; -23829882367160231100; 0; 0; 0; 0; 0; 0; 111206117713414412000; 0; 0; 0;
  0; 0; 0; 0; 0; 0; 0; -111206117713414412000; 0; 0; 0; 0;
  0; 0; 0; 0; 0; 0; 0; 0; 0; 0; 23829882367160231100; 0;
  0; 0; 0; 0; 0; 0; 0; 0; 0; 0; 0; 0;
  0; 0; 0; 0; 0; -529552941492449580; 0; 0; 0; 0; 0; 0;
  0; 0; 0; 0; 0; 0; 0; 0; 0; 0; 0; 0;
  0; 0; 0; 0; 0; 0; 0; 0; 0; 0; 0; 0;
  0; 0; 0; 0; 0; 0; 0; 0; 0; 0; 0; 0;
  0; 0; 0; 0; 0; 0; 0; 0; 0; 0; 0; 0;
  0; 0; 0; 0; 0; 0; 0; 0; 0; 0; 0; 0;
  0; 0; 0; 0; 0; 0; 0; 0; 0; 0; 542630291944221461; 0;
  0; -24418363137489965700; 0; 0; 0; 0; 0; 0; 113952361308286507000; 0; 0; 0;
  0; 0; 0; 0; 0; 0; 0; -113952361308286507000; 0; 0; 0; 0;
  0; 0; 0; 0; 0; 0; 0; 0; 0; 0; 24418363137489965700; 0;
  0; 0; 0; 0; 0; 0; 0; 0; 0; 0; 0; 0;
  0; 0; 0; 0; 0; -542630291944221461; 0; 0; 0; 0; 0; 0;
  0; 0; 0; 0; 118411637486208620; 0; 0; -5328523686879387880; 0; 0; 0; 0;
  0; 0; 24866443872103810100; 0; 0; 0; 0; 0; 0; 0; 0; 0;
  0; -24866443872103810100; 0; 0; 0; 0; 0; 0; 0; 0; 0; 0;
  0; 0; 0; 0; 5328523686879387880; 0; 0; 0; 0; 0; 0; 0;
  0; 0; 0; 0; 0; 0; 0; 0; 0; 0; 0; -118411637486208620;
  0; 0; 0; 0; 0; 0; 0; 0; 0; 0; 0; 0;
  2368232749724172390; 0; 0; 0; 0; -85256378990070206100; 0; 0; 0; 0; 0; 0;
  0; 0; 298397326465245721000; 0; 0; 0; 0; 0; 0; 0; 0; 0;
  0; 0; 0; -198931550976830481000; 0; 0; 0; 0; 0; 0; 0; 0;
  0; 0; 0; 0; 0; 0; 0; 0; 21314094747517551500; 0; 0; 0;
  0; 0; 0; 0; 0; 0; 0; 0; 0; 0; 0; 0;
  0; 0; 0; 0; 0; 0; 748900951853188297; 0; 0; 0; 0; -26960434266714778700;
  0; 0; 0; 0; 0; 0; 0; 0; 94361519933501725400; 0; 0; 0;
  0; 0; 0; 0; 0; 0; 0; 0; 0; -62907679955667816900; 0; 0;
  0; 0; 0; 0; 0; 0; 0; 0; 0; 0; 0; 0;
  0; 0; 6740108566678694670; 0; 0; 0; 0; 0; 0; 0; 0; 0;
  0; 0; 0; 0; 0; 0; 0; 0; 0; 0; -374450475926594148; 0;
  0; 10110162850018042000; 0; 6740108566678694670; 0; 0; 0; 0; -15726919988916954200; 0; -188723039867003451000; 0;
  0; 0; 0; 0; 0; 0; 0; -15726919988916954200; 0; 471807599667508627000; 0; 0;
  0; 0; 0; 0; 0; 0; 0; 0; 0; 0; 10110162850018042000; 0;
  -188723039867003451000; 0; 0; 0; 0; 0; 0; 0; 0; 0; 0; 0;
  0; 0; 0; 0; 0; -374450475926594148; 0; 6740108566678694670; 0; 0; 0; 0;
  0; 0; 0; 0; -148791531444953757; 0; 0; 4017371349013751440; 0; 2678247566009167630; 0; 0;
  0; 0; -6249244320688057800; 0; -74990931848256693600; 0; 0; 0; 0; 0; 0; 0;
  0; -6249244320688057800; 0; 187477329620641734000; 0; 0; 0; 0; 0; 0; 0; 0;
  0; 0; 0; 0; 4017371349013751440; 0; -74990931848256693600; 0; 0; 0; 0; 0;
  0; 0; 0; 0; 0; 0; 0; 0; 0; 0; 0; -148791531444953757;
  0; 2678247566009167630; 0; 0; 0; 0; 0; 0; 0; 0; 0; 0;
  -2678247566009167630; 0; 0; 0; 0; 53564951320183352600; 0; 14283987018715560700; 0; 0; 0; 0;
  0; 0; -37495465924128346800; 0; -299963727393026774000; 0; 0; 0; 0; 0; 0; 0;
  0; 0; 0; -74990931848256693600; 0; 499939545655044624000; 0; 0; 0; 0; 0; 0;
  0; 0; 0; 0; 0; 0; 0; 0; 18747732962064173400; 0; -99987909131008924800; 0;
  0; 0; 0; 0; 0; 0; 0; 0; 0; 0; 0; 0;
  0; 0; 0; 0; 0; 0; -1262538010414298660; 0; 0; 0; 0; 25250760208285973200;
  0; 6733536055542926190; 0; 0; 0; 0; 0; 0; -17675532145800181300; 0; -141404257166401450000; 0;
  0; 0; 0; 0; 0; 0; 0; 0; 0; -35351064291600362500; 0; 235673761944002417000;
  0; 0; 0; 0; 0; 0; 0; 0; 0; 0; 0; 0;
  0; 0; 8837766072900090630; 0; -47134752388800483300; 0; 0; 0; 0; 0; 0; 0;
  0; 0; 0; 0; 0; 0; 0; 0; 0; 0; 315634502603574665; 0;
  0; -4103248533846470650; 0; -10100304083314389300].
Definition g_trans_cart2jR_dec_16 : list Z := [
  0; 0; 0; 0; -4418883036450045310; 0; 141404257166401450000; 0; 23567376194400241700; 0; 0; 0;
  0; 0; 0; 4418883036450045310; 0; 0; 0; -353510642916003625000; 0; 0; 0; 0;
  0; 0; 0; 0; 0; 0; 4103248533846470650; 0; -141404257166401450000; 0; 353510642916003625000; 0;
  0; 0; 0; 0; 0; 0; 0; 0; 0; 0; 0; 0;
  0; -315634502603574665; 0; 10100304083314389300; 0; -23567376194400241700; 0; 0; 0; 0; 0; 0;
  171176842882893189; 0; 0; -2225298957477611460; 0; -5477658972252582050; 0; 0; 0; 0; -2396475800360504650; 0;
  76687225611536148700; 0; 12781204268589358100; 0; 0; 0; 0; 0; 0; 2396475800360504650; 0; 0;
  0; -191718064028840372000; 0; 0; 0; 0; 0; 0; 0; 0; 0; 0;
  2225298957477611460; 0; -76687225611536148700; 0; 191718064028840372000; 0; 0; 0; 0; 0; 0; 0;
  0; 0; 0; 0; 0; 0; 0; -171176842882893189; 0; 5477658972252582050; 0; -12781204268589358100;
  0; 0; 0; 0; 0; 0; 0; 0; 2738829486126291020; 0; 0; 0;
  0; -21910635889010328200; 0; -25562408537178716200; 0; 0; 0; 0; 0; 0; -38343612805768074300; 0;
  230061676834608446000; 0; 30674890244614459500; 0; 0; 0; 0; 0; 0; 0; 0; 0;
  0; 127812042685893581000; 0; -306748902446144595000; 0; 0; 0; 0; 0; 0; 0; 0;
  0; 0; 0; 0; 13694147430631455100; 0; -127812042685893581000; 0; 153374451223072297000; 0; 0; 0;
  0; 0; 0; 0; 0; 0; 0; 0; 0; 0; 0; 0;
  0; 0; 1677183683374618110; 0; 0; 0; 0; -13417469466996944900; 0; -15653714378163102400; 0; 0;
  0; 0; 0; 0; -23480571567244653600; 0; 140883429403467921000; 0; 18784457253795722900; 0; 0; 0;
  0; 0; 0; 0; 0; 0; 0; 78268571890815511900; 0; -187844572537957229000; 0; 0;
  0; 0; 0; 0; 0; 0; 0; 0; 0; 0; 8385918416873090560; 0;
  -78268571890815511900; 0; 93922286268978614300; 0; 0; 0; 0; 0; 0; 0; 0; 0;
  0; 0; 0; 0; 0; 0; -279530613895769685; 0; 0; 838591841687309056; 0; 11740285783622326800;
  0; 0; 0; 0; 3913428594540775600; 0; -46961143134489307200; 0; -46961143134489307200; 0; 0; 0;
  0; 0; 0; 3913428594540775600; 0; -117402857836223268000; 0; 234805715672446536000; 0; 31307428756326204800; 0; 0;
  0; 0; 0; 0; 0; 0; 838591841687309056; 0; -46961143134489307200; 0; 234805715672446536000; 0;
  -187844572537957229000; 0; 0; 0; 0; 0; 0; 0; 0; 0; 0; 0;
  0; -279530613895769685; 0; 11740285783622326800; 0; -46961143134489307200; 0; 31307428756326204800; 0; 0; 0; 0;
  -190955762544560929; 0; 0; 572867287633682787; 0; 8020142026871559010; 0; 0; 0; 0; 2673380675623853000; 0;
  -32080568107486236100; 0; -32080568107486236100; 0; 0; 0; 0; 0; 0; 2673380675623853000; 0; -80201420268715590100;
  0; 160402840537431180000; 0; 21387045404990824000; 0; 0; 0; 0; 0; 0; 0; 0;
  572867287633682787; 0; -32080568107486236100; 0; 160402840537431180000; 0; -128322272429944944000; 0; 0; 0; 0; 0;
  0; 0; 0; 0; 0; 0; 0; -190955762544560929; 0; 8020142026871559010; 0; -32080568107486236100;
  0; 21387045404990824000; 0; 0; 0; 0; 0; 0; -2673380675623853000; 0; 0; 0;
  0; 0; 0; 32080568107486236100; 0; 0; 0; 0; 0; 0; 16040284053743118000; 0;
  -32080568107486236100; 0; -64161136214972472100; 0; 0; 0; 0; 0; 0; 0; 0; 21387045404990824000;
  0; -160402840537431180000; 0; 128322272429944944000; 0; 24442337605703798900; 0; 0; 0; 0; 0; 0;
  0; 0; 0; 0; 8020142026871559010; 0; -96241704322458708200; 0; 192483408644917416000; 0; -73327012817111396700; 0;
  0; 0; 0; 0; 0; 0; 0; 0; 0; 0; 0; 0;
  0; 0; -2020885836430442880; 0; 0; 0; 0; 0; 0; 24250630037165314500; 0; 0;
  0; 0; 0; 0; 12125315018582657300; 0; -24250630037165314500; 0; -48501260074330629000; 0; 0; 0;
  0; 0; 0; 0; 0; 16167086691443543000; 0; -121253150185826573000; 0; 97002520148661258100; 0; 18476670504506906300;
  0; 0; 0; 0; 0; 0; 0; 0; 0; 0; 6062657509291328630; 0;
  -72751890111495943500; 0; 145503780222991887000; 0; -55430011513520718900; 0; 0; 0; 0; 0; 0; 0;
  0; 0; 0; 0; 0; 0; 252610729553805360; 0; 0; 757832188661416079; 0; -12125315018582657300;
  0; 0; 0; 0; 505221459107610719; 0; -24250630037165314500; 0; 60626575092913286300; 0; 0; 0;
  0; 0; 0; -505221459107610719; 0; 0; 0; 60626575092913286300; 0; -64668346765774172000; 0; 0;
  0; 0; 0; 0; 0; 0; -757832188661416079; 0; 24250630037165314500; 0; -60626575092913286300; 0;
  0; 0; 13857502878380179700; 0; 0; 0; 0; 0; 0; 0; 0; 0;
  0; -252610729553805360; 0; 12125315018582657300; 0; -60626575092913286300; 0; 64668346765774172000; 0; -13857502878380179700; 0; 0;
  210184831878141177; 0; 0; 630554495634423532; 0; -10088871930150776500; 0; 0; 0; 0; 420369663756282355; 0;
  -20177743860301553000; 0; 50444359650753882600; 0; 0; 0; 0; 0; 0; -420369663756282355; 0; 0;
  0; 50444359650753882600; 0; -53807316960804141400; 0; 0; 0; 0; 0; 0; 0; 0;
  -630554495634423532; 0; 20177743860301553000; 0; -50444359650753882600; 0; 0; 0; 11530139348743744600; 0; 0; 0;
  0; 0; 0; 0; 0; 0; 0; -210184831878141177; 0; 10088871930150776500; 0; -50444359650753882600;
  0; 53807316960804141400; 0; -11530139348743744600; 0; 0; 0; 0; 2522217982537694130; 0; 0; 0;
  0; 10088871930150776500; 0; -33629573100502588400; 0; 0; 0; 0; 0; 0; 15133307895226164800; 0;
  -100888719301507765000; 0; 80710975441206212100; 0; 0; 0; 0; 0; 0; 0; 0; 10088871930150776500;
  0; -100888719301507765000; 0; 161421950882412424000; 0; -46120557394974978400; 0; 0; 0; 0; 0; 0;
  0; 0; 0; 0; 2522217982537694130; 0; -33629573100502588400; 0; 80710975441206212100; 0; -46120557394974978400; 0;
  5124506377219442040; 0; 0; 0; 0; 0; 0; 0; 0; 0; 0; 0;
  0; 0; 2302459473301777050; 0; 0; 0; 0; 9209837893207108220; 0; -30699459644023694100; 0; 0;
  0; 0; 0; 0; 13814756839810662300; 0; -92098378932071082200; 0; 73678703145656865800; 0; 0; 0;
  0; 0; 0; 0; 0; 9209837893207108220; 0; -92098378932071082200; 0; 147357406291313732000; 0; -42102116083232494700;
  0; 0; 0; 0; 0; 0; 0; 0; 0; 0; 2302459473301777050; 0;
  -30699459644023694100; 0; 73678703145656865800; 0; -42102116083232494700; 0; 4678012898136943860; 0; 0; 0; 0; 0;
  0; 0; 0; 0; 0; 0; -230245947330177705; 0; 0; -1151229736650888530; 0; 11512297366508885300;
  0; 0; 0; 0; -2302459473301777050; 0; 46049189466035541100; 0; -61398919288047388100; 0; 0; 0;
  0; 0; 0; -2302459473301777050; 0; 69073784199053311600; 0; -184196757864142164000; 0; 73678703145656865800; 0; 0;
  0; 0; 0; 0; 0; 0; -1151229736650888530; 0; 46049189466035541100; 0; -184196757864142164000; 0;
  147357406291313732000; 0; -21051058041616247400; 0; 0; 0; 0; 0; 0; 0; 0; 0;
  0; -230245947330177705; 0; 11512297366508885300; 0; -61398919288047388100; 0; 73678703145656865800; 0; -21051058041616247400; 0; 935602579627388772;
  -230245947330177705; 0; 0; -1151229736650888530; 0; 11512297366508885300; 0; 0; 0; 0; -2302459473301777050; 0;
  46049189466035541100; 0; -61398919288047388100; 0; 0; 0; 0; 0; 0; -2302459473301777050; 0; 69073784199053311600;
  0; -184196757864142164000; 0; 73678703145656865800; 0; 0; 0; 0; 0; 0; 0; 0;
  -1151229736650888530; 0; 46049189466035541100; 0; -184196757864142164000; 0; 147357406291313732000; 0; -21051058041616247400; 0; 0; 0;
  0; 0; 0; 0; 0; 0; 0; -230245947330177705; 0; 11512297366508885300; 0; -61398919288047388100;
  0; 73678703145656865800; 0; -21051058041616247400; 0; 935602579627388772; 0; 0; -2302459473301777050; 0; 0; 0;
  0; -9209837893207108220; 0; 30699459644023694100; 0; 0; 0; 0; 0; 0; -13814756839810662300; 0;
  92098378932071082200; 0; -73678703145656865800; 0; 0; 0; 0; 0; 0; 0; 0; -9209837893207108220;
  0; 92098378932071082200; 0; -147357406291313732000; 0; 42102116083232494700; 0; 0; 0; 0; 0; 0;
  0; 0; 0; 0; -2302459473301777050; 0; 30699459644023694100; 0; -73678703145656865800; 0; 42102116083232494700; 0;
  -4678012898136943860; 0; 0; 0; 0; 0; 0; 0; 0; 0; 0; 0;
  0; 0; -2522217982537694130; 0; 0; 0; 0; -10088871930150776500; 0; 33629573100502588400; 0; 0;
  0; 0; 0; 0].
Definition g_trans_cart2jR_dec_17 : list Z := [
  -15133307895226164800; 0; 100888719301507765000; 0; -80710975441206212100; 0; 0; 0; 0; 0; 0; 0;
  0; -10088871930150776500; 0; 100888719301507765000; 0; -161421950882412424000; 0; 46120557394974978400; 0; 0; 0; 0;
  0; 0; 0; 0; 0; 0; -2522217982537694130; 0; 33629573100502588400; 0; -80710975441206212100; 0;
  46120557394974978400; 0; -5124506377219442040; 0; 0; 0; 0; 0; 0; 0; 0; 0;
  0; 0; 210184831878141177; 0; 0; 630554495634423532; 0; -10088871930150776500; 0; 0; 0; 0;
  420369663756282355; 0; -20177743860301553000; 0; 50444359650753882600; 0; 0; 0; 0; 0; 0; -420369663756282355;
  0; 0; 0; 50444359650753882600; 0; -53807316960804141400; 0; 0; 0; 0; 0; 0;
  0; 0; -630554495634423532; 0; 20177743860301553000; 0; -50444359650753882600; 0; 0; 0; 11530139348743744600; 0;
  0; 0; 0; 0; 0; 0; 0; 0; 0; -210184831878141177; 0; 10088871930150776500;
  0; -50444359650753882600; 0; 53807316960804141400; 0; -11530139348743744600; 0; 0; 252610729553805360; 0; 0; 757832188661416079;
  0; -12125315018582657300; 0; 0; 0; 0; 505221459107610719; 0; -24250630037165314500; 0; 60626575092913286300; 0;
  0; 0; 0; 0; 0; -505221459107610719; 0; 0; 0; 60626575092913286300; 0; -64668346765774172000;
  0; 0; 0; 0; 0; 0; 0; 0; -757832188661416079; 0; 24250630037165314500; 0;
  -60626575092913286300; 0; 0; 0; 13857502878380179700; 0; 0; 0; 0; 0; 0; 0;
  0; 0; 0; -252610729553805360; 0; 12125315018582657300; 0; -60626575092913286300; 0; 64668346765774172000; 0; -13857502878380179700;
  0; 0; 0; 0; 2020885836430442880; 0; 0; 0; 0; 0; 0; -24250630037165314500;
  0; 0; 0; 0; 0; 0; -12125315018582657300; 0; 24250630037165314500; 0; 48501260074330629000; 0;
  0; 0; 0; 0; 0; 0; 0; -16167086691443543000; 0; 121253150185826573000; 0; -97002520148661258100;
  0; -18476670504506906300; 0; 0; 0; 0; 0; 0; 0; 0; 0; 0;
  -6062657509291328630; 0; 72751890111495943500; 0; -145503780222991887000; 0; 55430011513520718900; 0; 0; 0; 0; 0;
  0; 0; 0; 0; 0; 0; 0; 0; 0; 0; 2673380675623853000; 0;
  0; 0; 0; 0; 0; -32080568107486236100; 0; 0; 0; 0; 0; 0;
  -16040284053743118000; 0; 32080568107486236100; 0; 64161136214972472100; 0; 0; 0; 0; 0; 0; 0;
  0; -21387045404990824000; 0; 160402840537431180000; 0; -128322272429944944000; 0; -24442337605703798900; 0; 0; 0; 0;
  0; 0; 0; 0; 0; 0; -8020142026871559010; 0; 96241704322458708200; 0; -192483408644917416000; 0;
  73327012817111396700; 0; 0; 0; 0; 0; 0; 0; 0; 0; 0; 0;
  0; 0; -190955762544560929; 0; 0; 572867287633682787; 0; 8020142026871559010; 0; 0; 0; 0;
  2673380675623853000; 0; -32080568107486236100; 0; -32080568107486236100; 0; 0; 0; 0; 0; 0; 2673380675623853000;
  0; -80201420268715590100; 0; 160402840537431180000; 0; 21387045404990824000; 0; 0; 0; 0; 0; 0;
  0; 0; 572867287633682787; 0; -32080568107486236100; 0; 160402840537431180000; 0; -128322272429944944000; 0; 0; 0;
  0; 0; 0; 0; 0; 0; 0; 0; 0; -190955762544560929; 0; 8020142026871559010;
  0; -32080568107486236100; 0; 21387045404990824000; 0; 0; 0; 0; -279530613895769685; 0; 0; 838591841687309056;
  0; 11740285783622326800; 0; 0; 0; 0; 3913428594540775600; 0; -46961143134489307200; 0; -46961143134489307200; 0;
  0; 0; 0; 0; 0; 3913428594540775600; 0; -117402857836223268000; 0; 234805715672446536000; 0; 31307428756326204800;
  0; 0; 0; 0; 0; 0; 0; 0; 838591841687309056; 0; -46961143134489307200; 0;
  234805715672446536000; 0; -187844572537957229000; 0; 0; 0; 0; 0; 0; 0; 0; 0;
  0; 0; 0; -279530613895769685; 0; 11740285783622326800; 0; -46961143134489307200; 0; 31307428756326204800; 0; 0;
  0; 0; 0; 0; -1677183683374618110; 0; 0; 0; 0; 13417469466996944900; 0; 15653714378163102400;
  0; 0; 0; 0; 0; 0; 23480571567244653600; 0; -140883429403467921000; 0; -18784457253795722900; 0;
  0; 0; 0; 0; 0; 0; 0; 0; 0; -78268571890815511900; 0; 187844572537957229000;
  0; 0; 0; 0; 0; 0; 0; 0; 0; 0; 0; 0;
  -8385918416873090560; 0; 78268571890815511900; 0; -93922286268978614300; 0; 0; 0; 0; 0; 0; 0;
  0; 0; 0; 0; 0; 0; 0; 0; 0; 0; -2738829486126291020; 0;
  0; 0; 0; 21910635889010328200; 0; 25562408537178716200; 0; 0; 0; 0; 0; 0;
  38343612805768074300; 0; -230061676834608446000; 0; -30674890244614459500; 0; 0; 0; 0; 0; 0; 0;
  0; 0; 0; -127812042685893581000; 0; 306748902446144595000; 0; 0; 0; 0; 0; 0;
  0; 0; 0; 0; 0; 0; -13694147430631455100; 0; 127812042685893581000; 0; -153374451223072297000; 0;
  0; 0; 0; 0; 0; 0; 0; 0; 0; 0; 0; 0;
  0; 0; 171176842882893189; 0; 0; -2225298957477611460; 0; -5477658972252582050; 0; 0; 0; 0;
  -2396475800360504650; 0; 76687225611536148700; 0; 12781204268589358100; 0; 0; 0; 0; 0; 0; 2396475800360504650;
  0; 0; 0; -191718064028840372000; 0; 0; 0; 0; 0; 0; 0; 0;
  0; 0; 2225298957477611460; 0; -76687225611536148700; 0; 191718064028840372000; 0; 0; 0; 0; 0;
  0; 0; 0; 0; 0; 0; 0; 0; 0; -171176842882893189; 0; 5477658972252582050;
  0; -12781204268589358100; 0; 0; 0; 0; 0; 0; 315634502603574665; 0; 0; -4103248533846470650;
  0; -10100304083314389300; 0; 0; 0; 0; -4418883036450045310; 0; 141404257166401450000; 0; 23567376194400241700; 0;
  0; 0; 0; 0; 0; 4418883036450045310; 0; 0; 0; -353510642916003625000; 0; 0;
  0; 0; 0; 0; 0; 0; 0; 0; 4103248533846470650; 0; -141404257166401450000; 0;
  353510642916003625000; 0; 0; 0; 0; 0; 0; 0; 0; 0; 0; 0;
  0; 0; 0; -315634502603574665; 0; 10100304083314389300; 0; -23567376194400241700; 0; 0; 0; 0;
  0; 0; 0; 0; 1262538010414298660; 0; 0; 0; 0; -25250760208285973200; 0; -6733536055542926190;
  0; 0; 0; 0; 0; 0; 17675532145800181300; 0; 141404257166401450000; 0; 0; 0;
  0; 0; 0; 0; 0; 0; 0; 35351064291600362500; 0; -235673761944002417000; 0; 0;
  0; 0; 0; 0; 0; 0; 0; 0; 0; 0; 0; 0;
  -8837766072900090630; 0; 47134752388800483300; 0; 0; 0; 0; 0; 0; 0; 0; 0;
  0; 0; 0; 0; 0; 0; 0; 0; 0; 0; 2678247566009167630; 0;
  0; 0; 0; -53564951320183352600; 0; -14283987018715560700; 0; 0; 0; 0; 0; 0;
  37495465924128346800; 0; 299963727393026774000; 0; 0; 0; 0; 0; 0; 0; 0; 0;
  0; 74990931848256693600; 0; -499939545655044624000; 0; 0; 0; 0; 0; 0; 0; 0;
  0; 0; 0; 0; 0; 0; -18747732962064173400; 0; 99987909131008924800; 0; 0; 0;
  0; 0; 0; 0; 0; 0; 0; 0; 0; 0; 0; 0;
  0; 0; -148791531444953757; 0; 0; 4017371349013751440; 0; 2678247566009167630; 0; 0; 0; 0;
  -6249244320688057800; 0; -74990931848256693600; 0; 0; 0; 0; 0; 0; 0; 0; -6249244320688057800;
  0; 187477329620641734000; 0; 0; 0; 0; 0; 0; 0; 0; 0; 0;
  0; 0; 4017371349013751440; 0; -74990931848256693600; 0; 0; 0; 0; 0; 0; 0;
  0; 0; 0; 0; 0; 0; 0; 0; 0; -148791531444953757; 0; 2678247566009167630;
  0; 0; 0; 0; 0; 0; 0; 0; -374450475926594148; 0; 0; 10110162850018042000;
  0; 6740108566678694670; 0; 0; 0; 0; -15726919988916954200; 0; -188723039867003451000; 0; 0; 0;
  0; 0; 0; 0; 0; -15726919988916954200; 0; 471807599667508627000; 0; 0; 0; 0;
  0; 0; 0; 0; 0; 0; 0; 0; 10110162850018042000; 0; -188723039867003451000; 0;
  0; 0; 0; 0; 0; 0; 0; 0; 0; 0; 0; 0;
  0; 0; 0; -374450475926594148; 0; 6740108566678694670; 0; 0; 0; 0; 0; 0;
  0; 0; 0; 0; -748900951853188297; 0; 0; 0; 0; 26960434266714778700; 0; 0;
  0; 0; 0; 0; 0; 0; -94361519933501725400; 0; 0; 0; 0; 0;
  0; 0; 0; 0].
Definition g_trans_cart2jR_dec_18 : list Z := [
  0; 0; 0; 62907679955667816900; 0; 0; 0; 0; 0; 0; 0; 0;
  0; 0; 0; 0; 0; 0; 0; 0; -6740108566678694670; 0; 0; 0;
  0; 0; 0; 0; 0; 0; 0; 0; 0; 0; 0; 0;
  0; 0; 0; 0; 0; 0; -2368232749724172390; 0; 0; 0; 0; 85256378990070206100;
  0; 0; 0; 0; 0; 0; 0; 0; -298397326465245721000; 0; 0; 0;
  0; 0; 0; 0; 0; 0; 0; 0; 0; 198931550976830481000; 0; 0;
  0; 0; 0; 0; 0; 0; 0; 0; 0; 0; 0; 0;
  0; 0; -21314094747517551500; 0; 0; 0; 0; 0; 0; 0; 0; 0;
  0; 0; 0; 0; 0; 0; 0; 0; 0; 0; 118411637486208620; 0;
  0; -5328523686879387880; 0; 0; 0; 0; 0; 0; 24866443872103810100; 0; 0; 0;
  0; 0; 0; 0; 0; 0; 0; -24866443872103810100; 0; 0; 0; 0;
  0; 0; 0; 0; 0; 0; 0; 0; 0; 0; 5328523686879387880; 0;
  0; 0; 0; 0; 0; 0; 0; 0; 0; 0; 0; 0;
  0; 0; 0; 0; 0; -118411637486208620; 0; 0; 0; 0; 0; 0;
  0; 0; 0; 0; 542630291944221461; 0; 0; -24418363137489965700; 0; 0; 0; 0;
  0; 0; 113952361308286507000; 0; 0; 0; 0; 0; 0; 0; 0; 0;
  0; -113952361308286507000; 0; 0; 0; 0; 0; 0; 0; 0; 0; 0;
  0; 0; 0; 0; 24418363137489965700; 0; 0; 0; 0; 0; 0; 0;
  0; 0; 0; 0; 0; 0; 0; 0; 0; 0; 0; -542630291944221461;
  0; 0; 0; 0; 0; 0; 0; 0; 0; 0; 0; 0;
  0; 0; 0; 0; 0; 0; 0; 0; 0; 0; 0; 0;
  0; 0; 0; 0; 0; 0; 0; 0; 0; 0; 0; 0;
  0; 0; 0; 0; 0; 0; 0; 0; 0; 0; 0; 0;
  0; 0; 0; 0; 0; 0; 0; 0; 0; 0; 0; 0;
  0; 0; 0; 0; 0; 0; 0; 0; 0; 0; 0; 0;
  0; 0; 0; 0; -542630291944221461; 0; 0; 29844666056932180300; 0; 0; 0; 0;
  0; 0; -179067996341593082000; 0; 0; 0; 0; 0; 0; 0; 0; 0;
  0; 250695194878230315000; 0; 0; 0; 0; 0; 0; 0; 0; 0; 0;
  0; 0; 0; 0; -89533998170796541000; 0; 0; 0; 0; 0; 0; 0;
  0; 0; 0; 0; 0; 0; 0; 0; 0; 0; 0; 5968933211386436070;
  0; 0; 0; 0; 0; 0; 0; 0; 0; 0; 0; 0;
  0; 0; 0; 0; 0; 0; 0; 0; 0; 0; 0; 0;
  542630291944221461; 0; 0; 0; 0; -24418363137489965700; 0; 0; 0; 0; 0; 0;
  0; 0; 113952361308286507000; 0; 0; 0; 0; 0; 0; 0; 0; 0;
  0; 0; 0; -113952361308286507000; 0; 0; 0; 0; 0; 0; 0; 0;
  0; 0; 0; 0; 0; 0; 0; 0; 24418363137489965700; 0; 0; 0;
  0; 0; 0; 0; 0; 0; 0; 0; 0; 0; 0; 0;
  0; 0; 0; 0; 0; -542630291944221461; 0; 0; 0; 0; 0; 0;
  0; 0; 0; 0; 0; 0; -2486644387210381010; 0; 0; 0; 0; 111898997424467146000;
  0; 0; 0; 0; 0; 0; 0; 0; -522195321314180012000; 0; 0; 0;
  0; 0; 0; 0; 0; 0; 0; 0; 0; 522195321314180012000; 0; 0;
  0; 0; 0; 0; 0; 0; 0; 0; 0; 0; 0; 0;
  0; 0; -111898997424467146000; 0; 0; 0; 0; 0; 0; 0; 0; 0;
  0; 0; 0; 0; 0; 0; 0; 0; 0; 0; 0; 2486644387210381010;
  0; 0; 0; 0; 0; 0; 0; 0; 0; 0; -118411637486208620; 0;
  0; 4144407312017301690; 0; 2368232749724172390; 0; 0; 0; 0; -10657047373758775800; 0; -85256378990070206100; 0;
  0; 0; 0; 0; 0; 0; 0; -4973288774420762020; 0; 298397326465245721000; 0; 0;
  0; 0; 0; 0; 0; 0; 0; 0; 0; 0; 8880872811465646470; 0;
  -198931550976830481000; 0; 0; 0; 0; 0; 0; 0; 0; 0; 0; 0;
  0; 0; 0; 0; 0; -1065704737375877580; 0; 21314094747517551500; 0; 0; 0; 0;
  0; 0; 0; 0; 0; 0; 0; 0; 0; 0; 0; 0;
  0; 0; 0; 0; 374450475926594148; 0; 0; -13105766657430795200; 0; -7489009518531882970; 0; 0;
  0; 0; 33700542833393473300; 0; 269604342667147787000; 0; 0; 0; 0; 0; 0; 0;
  0; 15726919988916954200; 0; -943615199335017254000; 0; 0; 0; 0; 0; 0; 0; 0;
  0; 0; 0; 0; -28083785694494561100; 0; 629076799556678169000; 0; 0; 0; 0; 0;
  0; 0; 0; 0; 0; 0; 0; 0; 0; 0; 0; 3370054283339347330;
  0; -67401085666786946700; 0; 0; 0; 0; 0; 0; 0; 0; 0; 0;
  0; 0; 0; 0; 0; 0; 0; 0; 0; 0; 0; 0;
  -1123351427779782440; 0; 0; 0; 0; 30330488550054126000; 0; 6740108566678694670; 0; 0; 0; 0;
  0; 0; -47180759966750862700; 0; -188723039867003451000; 0; 0; 0; 0; 0; 0; 0;
  0; 0; 0; -47180759966750862700; 0; 471807599667508627000; 0; 0; 0; 0; 0; 0;
  0; 0; 0; 0; 0; 0; 0; 0; 30330488550054126000; 0; -188723039867003451000; 0;
  0; 0; 0; 0; 0; 0; 0; 0; 0; 0; 0; 0;
  0; 0; 0; 0; 0; -1123351427779782440; 0; 6740108566678694670; 0; 0; 0; 0;
  0; 0; 0; 0; 0; 0; 2827039097454121390; 0; 0; 0; 0; -76330055631261277400;
  0; -16962234584724728300; 0; 0; 0; 0; 0; 0; 118735642093073098000; 0; 474942568372292393000; 0;
  0; 0; 0; 0; 0; 0; 0; 0; 0; 118735642093073098000; 0; -1187356420930730980000;
  0; 0; 0; 0; 0; 0; 0; 0; 0; 0; 0; 0;
  0; 0; -76330055631261277400; 0; 474942568372292393000; 0; 0; 0; 0; 0; 0; 0;
  0; 0; 0; 0; 0; 0; 0; 0; 0; 0; 0; 2827039097454121390;
  0; -16962234584724728300; 0; 0; 0; 0; 0; 0; 0; 0; 148791531444953757; 0;
  0; -2827039097454121390; 0; -5356495132018335260; 0; 0; 0; 0; -892749188669722543; 0; 107129902640366705000; 0;
  14283987018715560700; 0; 0; 0; 0; 0; 0; 6249244320688057800; 0; -74990931848256693600; 0; -299963727393026774000;
  0; 0; 0; 0; 0; 0; 0; 0; 0; 0; 3124622160344028900; 0;
  -149981863696513387000; 0; 499939545655044624000; 0; 0; 0; 0; 0; 0; 0; 0; 0;
  0; 0; 0; 0; 0; -1041540720114676300; 0; 37495465924128346800; 0; -99987909131008924800; 0; 0;
  0; 0; 0; 0; 0; 0; 0; 0; 0; 0; 0; 0;
  0; 0; 0; 0; -315634502603574665; 0; 0; 5997055549467918640; 0; 11362842093728687900; 0; 0;
  0; 0; 1893807015621447990; 0; -227256841874573759000; 0; -30300912249943167900; 0; 0; 0; 0; 0;
  0; -13256649109350135900; 0; 159079789312201631000; 0; 636319157248806525000; 0; 0; 0; 0; 0; 0;
  0; 0; 0; 0; -6628324554675067970; 0; 318159578624403263000; 0; -1060531928748010880000; 0; 0; 0;
  0; 0; 0; 0; 0; 0; 0; 0; 0; 0; 0; 2209441518225022660;
  0; -79539894656100815600; 0; 212106385749602175000; 0; 0; 0; 0; 0; 0; 0; 0;
  0; 0; 0; 0].
Definition g_trans_cart2jR_dec_19 : list Z := [
  0; 0; 0; 0; 0; 0; 0; 0; 1578172513017873330; 0; 0; 0;
  0; -20516242669232353200; 0; -16833840138857315500; 0; 0; 0; 0; 0; 0; -22094415182250226600; 0;
  235673761944002417000; 0; 23567376194400241700; 0; 0; 0; 0; 0; 0; 0; 0; 22094415182250226600;
  0; 0; 0; -353510642916003625000; 0; 0; 0; 0; 0; 0; 0; 0;
  0; 0; 0; 0; 20516242669232353200; 0; -235673761944002417000; 0; 353510642916003625000; 0; 0; 0;
  0; 0; 0; 0; 0; 0; 0; 0; 0; 0; 0; 0;
  0; -1578172513017873330; 0; 16833840138857315500; 0; -23567376194400241700; 0; 0; 0; 0; 0; 0;
  0; 0; -2910006329009184210; 0; 0; 0; 0; 37830082277119394800; 0; 31040067509431298300; 0; 0;
  0; 0; 0; 0; 40740088606128579000; 0; -434560945132038176000; 0; -43456094513203817600; 0; 0; 0;
  0; 0; 0; 0; 0; -40740088606128579000; 0; 0; 0; 651841417698057264000; 0; 0;
  0; 0; 0; 0; 0; 0; 0; 0; 0; 0; -37830082277119394800; 0;
  434560945132038176000; 0; -651841417698057264000; 0; 0; 0; 0; 0; 0; 0; 0; 0;
  0; 0; 0; 0; 0; 0; 0; 2910006329009184210; 0; -31040067509431298300; 0; 43456094513203817600;
  0; 0; 0; 0; 0; 0; -171176842882893189; 0; 0; 1198237900180252320; 0; 8216488458378873070;
  0; 0; 0; 0; 3765890543423650160; 0; -65731907667030984600; 0; -38343612805768074300; 0; 0; 0;
  0; 0; 0; 2396475800360504650; 0; -115030838417304223000; 0; 345092515251912669000; 0; 30674890244614459500; 0; 0;
  0; 0; 0; 0; 0; 0; -855884214414465945; 0; 0; 0; 191718064028840372000; 0;
  -306748902446144595000; 0; 0; 0; 0; 0; 0; 0; 0; 0; 0; 0;
  0; -855884214414465945; 0; 41082442291894365400; 0; -191718064028840372000; 0; 153374451223072297000; 0; 0; 0; 0;
  0; 0; 0; 0; 0; 0; 0; 0; 0; 0; 0; 0;
  279530613895769685; 0; 0; -1956714297270387800; 0; -13417469466996944900; 0; 0; 0; 0; -6149673505706933080; 0;
  107339755735975559000; 0; 62614857512652409500; 0; 0; 0; 0; 0; 0; -3913428594540775600; 0; 187844572537957229000;
  0; -563533717613871686000; 0; -50091886010121927600; 0; 0; 0; 0; 0; 0; 0; 0;
  1397653069478848430; 0; 0; 0; -313074287563262048000; 0; 500918860101219276000; 0; 0; 0; 0; 0;
  0; 0; 0; 0; 0; 0; 0; 1397653069478848430; 0; -67087347334984724500; 0; 313074287563262048000;
  0; -250459430050609638000; 0; 0; 0; 0; 0; 0; 0; 0; 0; 0;
  0; 0; 0; 0; 0; 0; 0; 0; -1956714297270387800; 0; 0; 0;
  0; 5870142891811163390; 0; 27394000161785429200; 0; 0; 0; 0; 0; 0; 27394000161785429200; 0;
  -109576000647141717000; 0; -65745600388285030000; 0; 0; 0; 0; 0; 0; 0; 0; 27394000161785429200;
  0; -273940001617854292000; 0; 328728001941425150000; 0; 31307428756326204800; 0; 0; 0; 0; 0; 0;
  0; 0; 0; 0; 5870142891811163390; 0; -109576000647141717000; 0; 328728001941425150000; 0; -187844572537957229000; 0;
  0; 0; 0; 0; 0; 0; 0; 0; 0; 0; 0; 0;
  0; -1956714297270387800; 0; 27394000161785429200; 0; -65745600388285030000; 0; 31307428756326204800; 0; 0; 0; 0;
  0; 0; 2864336438168413930; 0; 0; 0; 0; -8593009314505241800; 0; -40100710134357795100; 0; 0;
  0; 0; 0; 0; -40100710134357795100; 0; 160402840537431180000; 0; 96241704322458708200; 0; 0; 0;
  0; 0; 0; 0; 0; -40100710134357795100; 0; 401007101343577951000; 0; -481208521612293541000; 0; -45829383010694622900;
  0; 0; 0; 0; 0; 0; 0; 0; 0; 0; -8593009314505241800; 0;
  160402840537431180000; 0; -481208521612293541000; 0; 274976298064167738000; 0; 0; 0; 0; 0; 0; 0;
  0; 0; 0; 0; 0; 0; 0; 2864336438168413930; 0; -40100710134357795100; 0; 96241704322458708200;
  0; -45829383010694622900; 0; 0; 0; 0; 190955762544560929; 0; 0; 190955762544560929; 0; -10693522702495412000;
  0; 0; 0; 0; -1145734575267365570; 0; 0; 0; 64161136214972472100; 0; 0; 0;
  0; 0; 0; -2673380675623853000; 0; 64161136214972472100; 0; -64161136214972472100; 0; -85548181619963296100; 0; 0;
  0; 0; 0; 0; 0; 0; -2100513387990170220; 0; 85548181619963296100; 0; -320805681074862361000; 0;
  171096363239926592000; 0; 24442337605703798900; 0; 0; 0; 0; 0; 0; 0; 0; 0;
  0; -572867287633682787; 0; 32080568107486236100; 0; -192483408644917416000; 0; 256644544859889888000; 0; -73327012817111396700; 0; 0;
  0; 0; 0; 0; 0; 0; 0; 0; 0; 0; 0; 0;
  -252610729553805360; 0; 0; -252610729553805360; 0; 14146200855013100100; 0; 0; 0; 0; 1515664377322832160; 0;
  0; 0; -84877205130078600800; 0; 0; 0; 0; 0; 0; 3536550213753275030; 0; -84877205130078600800;
  0; 84877205130078600800; 0; 113169606840104801000; 0; 0; 0; 0; 0; 0; 0; 0;
  2778718025091858950; 0; -113169606840104801000; 0; 424386025650393004000; 0; -226339213680209602000; 0; -32334173382887086000; 0; 0; 0;
  0; 0; 0; 0; 0; 0; 0; 757832188661416079; 0; -42438602565039300400; 0; 254631615390235802000;
  0; -339508820520314403000; 0; 97002520148661258100; 0; 0; 0; 0; 0; 0; 0; 0;
  0; 0; 0; 0; 0; 0; 0; 0; 2273496565984248240; 0; 0; 0;
  0; 6820489697952744710; 0; -36375945055747971800; 0; 0; 0; 0; 0; 0; 4546993131968496470; 0;
  -72751890111495943500; 0; 109127835167243915000; 0; 0; 0; 0; 0; 0; 0; 0; -4546993131968496470;
  0; 0; 0; 109127835167243915000; 0; -83145017270281078300; 0; 0; 0; 0; 0; 0;
  0; 0; 0; 0; -6820489697952744710; 0; 72751890111495943500; 0; -109127835167243915000; 0; 0; 0;
  13857502878380179700; 0; 0; 0; 0; 0; 0; 0; 0; 0; 0; 0;
  0; -2273496565984248240; 0; 36375945055747971800; 0; -109127835167243915000; 0; 83145017270281078300; 0; -13857502878380179700; 0; 0;
  0; 0; -2732402814415835310; 0; 0; 0; 0; -8197208443247505920; 0; 43718445030653364900; 0; 0;
  0; 0; 0; 0; -5464805628831670610; 0; 87436890061306729800; 0; -131155335091960095000; 0; 0; 0;
  0; 0; 0; 0; 0; 5464805628831670610; 0; 0; 0; -131155335091960095000; 0; 99927874355779119800;
  0; 0; 0; 0; 0; 0; 0; 0; 0; 0; 8197208443247505920; 0;
  -87436890061306729800; 0; 131155335091960095000; 0; 0; 0; -16654645725963186600; 0; 0; 0; 0; 0;
  0; 0; 0; 0; 0; 0; 0; 2732402814415835310; 0; -43718445030653364900; 0; 131155335091960095000;
  0; -99927874355779119800; 0; 16654645725963186600; 0; 0; -210184831878141177; 0; 0; -1050924159390705890; 0; 12611089912688470600;
  0; 0; 0; 0; -2101848318781411770; 0; 50444359650753882600; 0; -84073932751256471000; 0; 0; 0;
  0; 0; 0; -2101848318781411770; 0; 75666539476130823900; 0; -252221798253769413000; 0; 134518292402010354000; 0; 0;
  0; 0; 0; 0; 0; 0; -1050924159390705890; 0; 50444359650753882600; 0; -252221798253769413000; 0;
  269036584804020707000; 0; -57650696743718723000; 0; 0; 0; 0; 0; 0; 0; 0; 0;
  0; -210184831878141177; 0; 12611089912688470600; 0; -84073932751256471000; 0; 134518292402010354000; 0; -57650696743718723000; 0; 5124506377219442040;
  0; 0; 0; 0; 0; 0; 0; 0; 0; 0; 0; 0;
  230245947330177705; 0; 0; 1151229736650888530; 0; -13814756839810662300; 0; 0; 0; 0; 2302459473301777050; 0;
  -55259027359242649300; 0; 92098378932071082200; 0; 0; 0; 0; 0; 0; 2302459473301777050; 0; -82888541038863974000;
  0; 276295136796213247000; 0; -147357406291313732000; 0; 0; 0; 0; 0; 0; 0; 0;
  1151229736650888530; 0; -55259027359242649300; 0; 276295136796213247000; 0; -294714812582627463000; 0; 63153174124848742100; 0; 0; 0;
  0; 0; 0; 0; 0; 0; 0; 230245947330177705; 0; -13814756839810662300; 0; 92098378932071082200;
  0; -147357406291313732000; 0; 63153174124848742100; 0; -5613615477764332630; 0; 0; 0; 0; 0; 0;
  0; 0; 0; 0; 0; 0; 0; 0; -2532705420631954760; 0; 0; 0;
  0; -12663527103159773800; 0; 42211757010532579300; 0; 0; 0; 0; 0; 0; -25327054206319547600; 0;
  168847028042130317000; 0; -135077622433704254000; 0; 0; 0; 0; 0; 0; 0; 0; -25327054206319547600;
  0; 253270542063195476000; 0; -405232867301112762000; 0; 115780819228889360000; 0; 0; 0; 0; 0; 0;
  0; 0; 0; 0; -12663527103159773800; 0; 168847028042130317000; 0; -405232867301112762000; 0; 231561638457778721000; 0;
  -25729070939753191200; 0; 0; 0].
Definition g_trans_cart2jR_dec_20 : list Z := [
  0; 0; 0; 0; 0; 0; 0; 0; 0; -2532705420631954760; 0; 42211757010532579300;
  0; -135077622433704254000; 0; 115780819228889360000; 0; -25729070939753191200; 0; 935602579627388772; 0; 0; 2532705420631954760; 0;
  0; 0; 0; 12663527103159773800; 0; -42211757010532579300; 0; 0; 0; 0; 0; 0;
  25327054206319547600; 0; -168847028042130317000; 0; 135077622433704254000; 0; 0; 0; 0; 0; 0; 0;
  0; 25327054206319547600; 0; -253270542063195476000; 0; 405232867301112762000; 0; -115780819228889360000; 0; 0; 0; 0;
  0; 0; 0; 0; 0; 0; 12663527103159773800; 0; -168847028042130317000; 0; 405232867301112762000; 0;
  -231561638457778721000; 0; 25729070939753191200; 0; 0; 0; 0; 0; 0; 0; 0; 0;
  0; 0; 0; 2532705420631954760; 0; -42211757010532579300; 0; 135077622433704254000; 0; -115780819228889360000; 0; 25729070939753191200;
  0; -935602579627388772; 230245947330177705; 0; 0; 1151229736650888530; 0; -13814756839810662300; 0; 0; 0; 0;
  2302459473301777050; 0; -55259027359242649300; 0; 92098378932071082200; 0; 0; 0; 0; 0; 0; 2302459473301777050;
  0; -82888541038863974000; 0; 276295136796213247000; 0; -147357406291313732000; 0; 0; 0; 0; 0; 0;
  0; 0; 1151229736650888530; 0; -55259027359242649300; 0; 276295136796213247000; 0; -294714812582627463000; 0; 63153174124848742100; 0;
  0; 0; 0; 0; 0; 0; 0; 0; 0; 230245947330177705; 0; -13814756839810662300;
  0; 92098378932071082200; 0; -147357406291313732000; 0; 63153174124848742100; 0; -5613615477764332630; 0; 0; 0; 0;
  0; 0; 0; 0; 0; 0; 0; 0; -210184831878141177; 0; 0; -1050924159390705890;
  0; 12611089912688470600; 0; 0; 0; 0; -2101848318781411770; 0; 50444359650753882600; 0; -84073932751256471000; 0;
  0; 0; 0; 0; 0; -2101848318781411770; 0; 75666539476130823900; 0; -252221798253769413000; 0; 134518292402010354000;
  0; 0; 0; 0; 0; 0; 0; 0; -1050924159390705890; 0; 50444359650753882600; 0;
  -252221798253769413000; 0; 269036584804020707000; 0; -57650696743718723000; 0; 0; 0; 0; 0; 0; 0;
  0; 0; 0; -210184831878141177; 0; 12611089912688470600; 0; -84073932751256471000; 0; 134518292402010354000; 0; -57650696743718723000;
  0; 5124506377219442040; 0; 0; 0; 0; 0; 0; 0; 0; 0; 0;
  0; 0; 0; 0; 2732402814415835310; 0; 0; 0; 0; 8197208443247505920; 0; -43718445030653364900;
  0; 0; 0; 0; 0; 0; 5464805628831670610; 0; -87436890061306729800; 0; 131155335091960095000; 0;
  0; 0; 0; 0; 0; 0; 0; -5464805628831670610; 0; 0; 0; 131155335091960095000;
  0; -99927874355779119800; 0; 0; 0; 0; 0; 0; 0; 0; 0; 0;
  -8197208443247505920; 0; 87436890061306729800; 0; -131155335091960095000; 0; 0; 0; 16654645725963186600; 0; 0; 0;
  0; 0; 0; 0; 0; 0; 0; 0; 0; -2732402814415835310; 0; 43718445030653364900;
  0; -131155335091960095000; 0; 99927874355779119800; 0; -16654645725963186600; 0; 0; 0; 0; -2273496565984248240; 0;
  0; 0; 0; -6820489697952744710; 0; 36375945055747971800; 0; 0; 0; 0; 0; 0;
  -4546993131968496470; 0; 72751890111495943500; 0; -109127835167243915000; 0; 0; 0; 0; 0; 0; 0;
  0; 4546993131968496470; 0; 0; 0; -109127835167243915000; 0; 83145017270281078300; 0; 0; 0; 0;
  0; 0; 0; 0; 0; 0; 6820489697952744710; 0; -72751890111495943500; 0; 109127835167243915000; 0;
  0; 0; -13857502878380179700; 0; 0; 0; 0; 0; 0; 0; 0; 0;
  0; 0; 0; 2273496565984248240; 0; -36375945055747971800; 0; 109127835167243915000; 0; -83145017270281078300; 0; 13857502878380179700;
  0; 0; -252610729553805360; 0; 0; -252610729553805360; 0; 14146200855013100100; 0; 0; 0; 0;
  1515664377322832160; 0; 0; 0; -84877205130078600800; 0; 0; 0; 0; 0; 0; 3536550213753275030;
  0; -84877205130078600800; 0; 84877205130078600800; 0; 113169606840104801000; 0; 0; 0; 0; 0; 0;
  0; 0; 2778718025091858950; 0; -113169606840104801000; 0; 424386025650393004000; 0; -226339213680209602000; 0; -32334173382887086000; 0;
  0; 0; 0; 0; 0; 0; 0; 0; 0; 757832188661416079; 0; -42438602565039300400;
  0; 254631615390235802000; 0; -339508820520314403000; 0; 97002520148661258100; 0; 0; 0; 0; 0; 0;
  0; 0; 0; 0; 0; 0; 0; 0; 190955762544560929; 0; 0; 190955762544560929;
  0; -10693522702495412000; 0; 0; 0; 0; -1145734575267365570; 0; 0; 0; 64161136214972472100; 0;
  0; 0; 0; 0; 0; -2673380675623853000; 0; 64161136214972472100; 0; -64161136214972472100; 0; -85548181619963296100;
  0; 0; 0; 0; 0; 0; 0; 0; -2100513387990170220; 0; 85548181619963296100; 0;
  -320805681074862361000; 0; 171096363239926592000; 0; 24442337605703798900; 0; 0; 0; 0; 0; 0; 0;
  0; 0; 0; -572867287633682787; 0; 32080568107486236100; 0; -192483408644917416000; 0; 256644544859889888000; 0; -73327012817111396700;
  0; 0; 0; 0; 0; 0; 0; 0; 0; 0; 0; 0;
  0; 0; 0; 0; -2864336438168413930; 0; 0; 0; 0; 8593009314505241800; 0; 40100710134357795100;
  0; 0; 0; 0; 0; 0; 40100710134357795100; 0; -160402840537431180000; 0; -96241704322458708200; 0;
  0; 0; 0; 0; 0; 0; 0; 40100710134357795100; 0; -401007101343577951000; 0; 481208521612293541000;
  0; 45829383010694622900; 0; 0; 0; 0; 0; 0; 0; 0; 0; 0;
  8593009314505241800; 0; -160402840537431180000; 0; 481208521612293541000; 0; -274976298064167738000; 0; 0; 0; 0; 0;
  0; 0; 0; 0; 0; 0; 0; 0; 0; -2864336438168413930; 0; 40100710134357795100;
  0; -96241704322458708200; 0; 45829383010694622900; 0; 0; 0; 0; 0; 0; 1956714297270387800; 0;
  0; 0; 0; -5870142891811163390; 0; -27394000161785429200; 0; 0; 0; 0; 0; 0;
  -27394000161785429200; 0; 109576000647141717000; 0; 65745600388285030000; 0; 0; 0; 0; 0; 0; 0;
  0; -27394000161785429200; 0; 273940001617854292000; 0; -328728001941425150000; 0; -31307428756326204800; 0; 0; 0; 0;
  0; 0; 0; 0; 0; 0; -5870142891811163390; 0; 109576000647141717000; 0; -328728001941425150000; 0;
  187844572537957229000; 0; 0; 0; 0; 0; 0; 0; 0; 0; 0; 0;
  0; 0; 0; 1956714297270387800; 0; -27394000161785429200; 0; 65745600388285030000; 0; -31307428756326204800; 0; 0;
  0; 0; 279530613895769685; 0; 0; -1956714297270387800; 0; -13417469466996944900; 0; 0; 0; 0;
  -6149673505706933080; 0; 107339755735975559000; 0; 62614857512652409500; 0; 0; 0; 0; 0; 0; -3913428594540775600;
  0; 187844572537957229000; 0; -563533717613871686000; 0; -50091886010121927600; 0; 0; 0; 0; 0; 0;
  0; 0; 1397653069478848430; 0; 0; 0; -313074287563262048000; 0; 500918860101219276000; 0; 0; 0;
  0; 0; 0; 0; 0; 0; 0; 0; 0; 1397653069478848430; 0; -67087347334984724500;
  0; 313074287563262048000; 0; -250459430050609638000; 0; 0; 0; 0; 0; 0; 0; 0;
  0; 0; 0; 0; 0; 0; 0; 0; -171176842882893189; 0; 0; 1198237900180252320;
  0; 8216488458378873070; 0; 0; 0; 0; 3765890543423650160; 0; -65731907667030984600; 0; -38343612805768074300; 0;
  0; 0; 0; 0; 0; 2396475800360504650; 0; -115030838417304223000; 0; 345092515251912669000; 0; 30674890244614459500;
  0; 0; 0; 0; 0; 0; 0; 0; -855884214414465945; 0; 0; 0;
  191718064028840372000; 0; -306748902446144595000; 0; 0; 0; 0; 0; 0; 0; 0; 0;
  0; 0; 0; -855884214414465945; 0; 41082442291894365400; 0; -191718064028840372000; 0; 153374451223072297000; 0; 0;
  0; 0; 0; 0; 0; 0; 0; 0; 0; 0; 0; 0;
  0; 0; 0; 0; 2910006329009184210; 0; 0; 0; 0; -37830082277119394800; 0; -31040067509431298300;
  0; 0; 0; 0; 0; 0; -40740088606128579000; 0; 434560945132038176000; 0; 43456094513203817600; 0;
  0; 0; 0; 0; 0; 0; 0; 40740088606128579000; 0; 0; 0; -651841417698057264000;
  0; 0; 0; 0; 0; 0; 0; 0; 0; 0; 0; 0;
  37830082277119394800; 0; -434560945132038176000; 0; 651841417698057264000; 0; 0; 0; 0; 0; 0; 0;
  0; 0; 0; 0; 0; 0; 0; 0; 0; -2910006329009184210; 0; 31040067509431298300;
  0; -43456094513203817600; 0; 0; 0; 0; 0; 0; 0; 0; -1578172513017873330; 0;
  0; 0; 0; 20516242669232353200; 0; 16833840138857315500; 0; 0; 0; 0; 0; 0;
  22094415182250226600; 0; -235673761944002417000; 0; -23567376194400241700; 0; 0; 0; 0; 0; 0; 0;
  0; -22094415182250226600; 0; 0; 0; 353510642916003625000; 0; 0; 0; 0; 0; 0;
  0; 0; 0; 0].
Definition g_trans_cart2jR_dec_21 : list Z := [
  0; 0; -20516242669232353200; 0; 235673761944002417000; 0; -353510642916003625000; 0; 0; 0; 0; 0;
  0; 0; 0; 0; 0; 0; 0; 0; 0; 0; 0; 1578172513017873330;
  0; -16833840138857315500; 0; 23567376194400241700; 0; 0; 0; 0; 0; 0; -315634502603574665; 0;
  0; 5997055549467918640; 0; 11362842093728687900; 0; 0; 0; 0; 1893807015621447990; 0; -227256841874573759000; 0;
  -30300912249943167900; 0; 0; 0; 0; 0; 0; -13256649109350135900; 0; 159079789312201631000; 0; 636319157248806525000;
  0; 0; 0; 0; 0; 0; 0; 0; 0; 0; -6628324554675067970; 0;
  318159578624403263000; 0; -1060531928748010880000; 0; 0; 0; 0; 0; 0; 0; 0; 0;
  0; 0; 0; 0; 0; 2209441518225022660; 0; -79539894656100815600; 0; 212106385749602175000; 0; 0;
  0; 0; 0; 0; 0; 0; 0; 0; 0; 0; 0; 0;
  0; 0; 0; 0; 148791531444953757; 0; 0; -2827039097454121390; 0; -5356495132018335260; 0; 0;
  0; 0; -892749188669722543; 0; 107129902640366705000; 0; 14283987018715560700; 0; 0; 0; 0; 0;
  0; 6249244320688057800; 0; -74990931848256693600; 0; -299963727393026774000; 0; 0; 0; 0; 0; 0;
  0; 0; 0; 0; 3124622160344028900; 0; -149981863696513387000; 0; 499939545655044624000; 0; 0; 0;
  0; 0; 0; 0; 0; 0; 0; 0; 0; 0; 0; -1041540720114676300;
  0; 37495465924128346800; 0; -99987909131008924800; 0; 0; 0; 0; 0; 0; 0; 0;
  0; 0; 0; 0; 0; 0; 0; 0; 0; 0; 0; 0;
  -2827039097454121390; 0; 0; 0; 0; 76330055631261277400; 0; 16962234584724728300; 0; 0; 0; 0;
  0; 0; -118735642093073098000; 0; -474942568372292393000; 0; 0; 0; 0; 0; 0; 0;
  0; 0; 0; -118735642093073098000; 0; 1187356420930730980000; 0; 0; 0; 0; 0; 0;
  0; 0; 0; 0; 0; 0; 0; 0; 76330055631261277400; 0; -474942568372292393000; 0;
  0; 0; 0; 0; 0; 0; 0; 0; 0; 0; 0; 0;
  0; 0; 0; 0; 0; -2827039097454121390; 0; 16962234584724728300; 0; 0; 0; 0;
  0; 0; 0; 0; 0; 0; 1123351427779782440; 0; 0; 0; 0; -30330488550054126000;
  0; -6740108566678694670; 0; 0; 0; 0; 0; 0; 47180759966750862700; 0; 188723039867003451000; 0;
  0; 0; 0; 0; 0; 0; 0; 0; 0; 47180759966750862700; 0; -471807599667508627000;
  0; 0; 0; 0; 0; 0; 0; 0; 0; 0; 0; 0;
  0; 0; -30330488550054126000; 0; 188723039867003451000; 0; 0; 0; 0; 0; 0; 0;
  0; 0; 0; 0; 0; 0; 0; 0; 0; 0; 0; 1123351427779782440;
  0; -6740108566678694670; 0; 0; 0; 0; 0; 0; 0; 0; 374450475926594148; 0;
  0; -13105766657430795200; 0; -7489009518531882970; 0; 0; 0; 0; 33700542833393473300; 0; 269604342667147787000; 0;
  0; 0; 0; 0; 0; 0; 0; 15726919988916954200; 0; -943615199335017254000; 0; 0;
  0; 0; 0; 0; 0; 0; 0; 0; 0; 0; -28083785694494561100; 0;
  629076799556678169000; 0; 0; 0; 0; 0; 0; 0; 0; 0; 0; 0;
  0; 0; 0; 0; 0; 3370054283339347330; 0; -67401085666786946700; 0; 0; 0; 0;
  0; 0; 0; 0; 0; 0; 0; 0; 0; 0; 0; 0;
  0; 0; 0; 0; -118411637486208620; 0; 0; 4144407312017301690; 0; 2368232749724172390; 0; 0;
  0; 0; -10657047373758775800; 0; -85256378990070206100; 0; 0; 0; 0; 0; 0; 0;
  0; -4973288774420762020; 0; 298397326465245721000; 0; 0; 0; 0; 0; 0; 0; 0;
  0; 0; 0; 0; 8880872811465646470; 0; -198931550976830481000; 0; 0; 0; 0; 0;
  0; 0; 0; 0; 0; 0; 0; 0; 0; 0; 0; -1065704737375877580;
  0; 21314094747517551500; 0; 0; 0; 0; 0; 0; 0; 0; 0; 0;
  0; 0; 0; 0; 0; 0; 0; 0; 0; 0; 0; 0;
  2486644387210381010; 0; 0; 0; 0; -111898997424467146000; 0; 0; 0; 0; 0; 0;
  0; 0; 522195321314180012000; 0; 0; 0; 0; 0; 0; 0; 0; 0;
  0; 0; 0; -522195321314180012000; 0; 0; 0; 0; 0; 0; 0; 0;
  0; 0; 0; 0; 0; 0; 0; 0; 111898997424467146000; 0; 0; 0;
  0; 0; 0; 0; 0; 0; 0; 0; 0; 0; 0; 0;
  0; 0; 0; 0; 0; -2486644387210381010; 0; 0; 0; 0; 0; 0;
  0; 0; 0; 0; 0; 0; -542630291944221461; 0; 0; 0; 0; 24418363137489965700;
  0; 0; 0; 0; 0; 0; 0; 0; -113952361308286507000; 0; 0; 0;
  0; 0; 0; 0; 0; 0; 0; 0; 0; 113952361308286507000; 0; 0;
  0; 0; 0; 0; 0; 0; 0; 0; 0; 0; 0; 0;
  0; 0; -24418363137489965700; 0; 0; 0; 0; 0; 0; 0; 0; 0;
  0; 0; 0; 0; 0; 0; 0; 0; 0; 0; 0; 542630291944221461;
  0; 0; 0; 0; 0; 0; 0; 0; 0; 0; -542630291944221461; 0;
  0; 29844666056932180300; 0; 0; 0; 0; 0; 0; -179067996341593082000; 0; 0; 0;
  0; 0; 0; 0; 0; 0; 0; 250695194878230315000; 0; 0; 0; 0;
  0; 0; 0; 0; 0; 0; 0; 0; 0; 0; -89533998170796541000; 0;
  0; 0; 0; 0; 0; 0; 0; 0; 0; 0; 0; 0;
  0; 0; 0; 0; 0; 5968933211386436070; 0; 0; 0; 0; 0; 0;
  0; 0; 0; 0; 0; 0; 0; 0; 0; 0; 0; 0;
  0; 0; 0; 0; 0; 0; 0; 0; 0; 0; 0; 0;
  0; 0; 0; 0; 0; 0; 0; 0; 0; 0; 0; 0;
  0; 0; 0; 0; 0; 0; 0; 0; 0; 0; 0; 0;
  0; 0; 0; 0; 0; 0; 0; 0; 0; 0; 0; 0;
  0; 0; 0; 0; 0; 0; 0; 0; 0; 0; 0; 0;
  0; 0; 0; 0; 0; 0; 0; 0; 0; 0; 0; 0;
  0; 0; 0; 0; 0; 0; 0; 0; 0; 0; 554825753806619302; 0;
  0; -30515416459364061600; 0; 0; 0; 0; 0; 0; 183092498756184370000; 0; 0; 0;
  0; 0; 0; 0; 0; 0; 0; -256329498258658117000; 0; 0; 0; 0;
  0; 0; 0; 0; 0; 0; 0; 0; 0; 0; 91546249378092184800; 0;
  0; 0; 0; 0; 0; 0; 0; 0; 0; 0; 0; 0;
  0; 0; 0; 0; 0; -6103083291872812320; 0; 0; 0; 0; 0; 0;
  0; 0; 0; 0; 0; 0; 0; 0; 0; 0; 0; 0;
  0; 0; 0; 0; 115689166958762041; 0; 0; -6362904182731912270; 0; 0; 0; 0;
  0; 0; 38177425096391473600; 0; 0; 0; 0; 0; 0; 0; 0; 0;
  0; -53448395134948063100; 0; 0; 0; 0; 0; 0; 0; 0; 0; 0;
  0; 0; 0; 0; 19088712548195736800; 0; 0; 0; 0; 0; 0; 0;
  0; 0; 0; 0; 0; 0; 0; 0; 0; 0; 0; -1272580836546382450;
  0; 0; 0; 0; 0; 0; 0; 0; 0; 0; 0; 0;
  0; 0; 0; 0; 0; 0; 0; 0; 0; 0; 0; 0;
  2545161673092764910; 0; 0; 0; 0; -114532275289174421000; 0; 0; 0; 0; 0; 0;
  0; 0; 534483951349480631000; 0; 0; 0; 0; 0; 0; 0; 0; 0;
  0; 0; 0; -534483951349480631000].
Definition g_trans_cart2jR_dec_22 : list Z := [
  0; 0; 0; 0; 0; 0; 0; 0; 0; 0; 0; 0;
  0; 0; 0; 0; 114532275289174421000; 0; 0; 0; 0; 0; 0; 0;
  0; 0; 0; 0; 0; 0; 0; 0; 0; 0; 0; 0;
  0; -2545161673092764910; 0; 0; 0; 0; 0; 0; 0; 0; 0; 0;
  0; 0; 767395118221990013; 0; 0; 0; 0; -34532780319989550600; 0; 0; 0; 0;
  0; 0; 0; 0; 161152974826617903000; 0; 0; 0; 0; 0; 0; 0;
  0; 0; 0; 0; 0; -161152974826617903000; 0; 0; 0; 0; 0; 0;
  0; 0; 0; 0; 0; 0; 0; 0; 0; 0; 34532780319989550600; 0;
  0; 0; 0; 0; 0; 0; 0; 0; 0; 0; 0; 0;
  0; 0; 0; 0; 0; 0; 0; -767395118221990013; 0; 0; 0; 0;
  0; 0; 0; 0; 0; 0; -383697559110995006; 0; 0; 13429414568884825200; 0; 7673951182219900130;
  0; 0; 0; 0; -34532780319989550600; 0; -276262242559916405000; 0; 0; 0; 0; 0;
  0; 0; 0; -16115297482661790300; 0; 966917848959707416000; 0; 0; 0; 0; 0; 0;
  0; 0; 0; 0; 0; 0; 28777316933324625500; 0; -644611899306471611000; 0; 0; 0;
  0; 0; 0; 0; 0; 0; 0; 0; 0; 0; 0; 0;
  0; -3453278031998955060; 0; 69065560639979101100; 0; 0; 0; 0; 0; 0; 0; 0;
  0; 0; 0; 0; 0; 0; 0; 0; 0; 0; 0; 0;
  -145024045724314041; 0; 0; 5075841600350991420; 0; 2900480914486280810; 0; 0; 0; 0; -13052164115188263700; 0;
  -104417312921506109000; 0; 0; 0; 0; 0; 0; 0; 0; -6091009920421189710; 0; 365460595225271382000;
  0; 0; 0; 0; 0; 0; 0; 0; 0; 0; 0; 0;
  10876803429323553000; 0; -243640396816847588000; 0; 0; 0; 0; 0; 0; 0; 0; 0;
  0; 0; 0; 0; 0; 0; 0; -1305216411518826370; 0; 26104328230376527300; 0; 0;
  0; 0; 0; 0; 0; 0; 0; 0; 0; 0; 0; 0;
  0; 0; 0; 0; 0; 0; 0; 0; -2900480914486280810; 0; 0; 0;
  0; 78312984691129581900; 0; 17402885486917684900; 0; 0; 0; 0; 0; 0; -121820198408423794000; 0;
  -487280793633695176000; 0; 0; 0; 0; 0; 0; 0; 0; 0; 0; -121820198408423794000;
  0; 1218201984084237940000; 0; 0; 0; 0; 0; 0; 0; 0; 0; 0;
  0; 0; 0; 0; 78312984691129581900; 0; -487280793633695176000; 0; 0; 0; 0; 0;
  0; 0; 0; 0; 0; 0; 0; 0; 0; 0; 0; 0;
  0; -2900480914486280810; 0; 17402885486917684900; 0; 0; 0; 0; 0; 0; 0; 0;
  0; 0; -1297134498446415680; 0; 0; 0; 0; 35022631458053223400; 0; 7782806990678494090; 0; 0;
  0; 0; 0; 0; -54479648934749458600; 0; -217918595738997834000; 0; 0; 0; 0; 0;
  0; 0; 0; 0; 0; -54479648934749458600; 0; 544796489347494586000; 0; 0; 0; 0;
  0; 0; 0; 0; 0; 0; 0; 0; 0; 0; 35022631458053223400; 0;
  -217918595738997834000; 0; 0; 0; 0; 0; 0; 0; 0; 0; 0; 0;
  0; 0; 0; 0; 0; 0; 0; -1297134498446415680; 0; 7782806990678494090; 0; 0;
  0; 0; 0; 0; 0; 0; 324283624611603920; 0; 0; -6161388867620474490; 0; -11674210486017741100;
  0; 0; 0; 0; -1945701747669623520; 0; 233484209720354823000; 0; 31131227962713976300; 0; 0; 0;
  0; 0; 0; 13619912233687364700; 0; -163438946804248376000; 0; -653755787216993503000; 0; 0; 0; 0;
  0; 0; 0; 0; 0; 0; 6809956116843682330; 0; -326877893608496752000; 0; 1089592978694989170000; 0;
  0; 0; 0; 0; 0; 0; 0; 0; 0; 0; 0; 0;
  0; -2269985372281227440; 0; 81719473402124187900; 0; -217918595738997834000; 0; 0; 0; 0; 0; 0;
  0; 0; 0; 0; 0; 0; 0; 0; 0; 0; 0; 0;
  166353989393607054; 0; 0; -3160725798478534030; 0; -5988743618169853960; 0; 0; 0; 0; -998123936361642327; 0;
  119774872363397079000; 0; 15969982981786277200; 0; 0; 0; 0; 0; 0; 6986867554531496290; 0; -83842410654377955500;
  0; -335369642617511822000; 0; 0; 0; 0; 0; 0; 0; 0; 0; 0;
  3493433777265748140; 0; -167684821308755911000; 0; 558949404362519703000; 0; 0; 0; 0; 0; 0; 0;
  0; 0; 0; 0; 0; 0; 0; -1164477925755249380; 0; 41921205327188977700; 0; -111789880872503941000;
  0; 0; 0; 0; 0; 0; 0; 0; 0; 0; 0; 0;
  0; 0; 0; 0; 0; 0; 0; 0; 2994371809084926980; 0; 0; 0;
  0; -38926833518104050700; 0; -31939965963572554500; 0; 0; 0; 0; 0; 0; -41921205327188977700; 0;
  447159523490015762000; 0; 44715952349001576200; 0; 0; 0; 0; 0; 0; 0; 0; 41921205327188977700;
  0; 0; 0; -670739285235023644000; 0; 0; 0; 0; 0; 0; 0; 0;
  0; 0; 0; 0; 38926833518104050700; 0; -447159523490015762000; 0; 670739285235023644000; 0; 0; 0;
  0; 0; 0; 0; 0; 0; 0; 0; 0; 0; 0; 0;
  0; -2994371809084926980; 0; 31939965963572554500; 0; -44715952349001576200; 0; 0; 0; 0; 0; 0;
  0; 0; 1728801370029009280; 0; 0; 0; 0; -22474417810377120600; 0; -18440547946976099000; 0; 0;
  0; 0; 0; 0; -24203219180406129900; 0; 258167671257665386000; 0; 25816767125766538600; 0; 0; 0;
  0; 0; 0; 0; 0; 24203219180406129900; 0; 0; 0; -387251506886498079000; 0; 0;
  0; 0; 0; 0; 0; 0; 0; 0; 0; 0; 22474417810377120600; 0;
  -258167671257665386000; 0; 387251506886498079000; 0; 0; 0; 0; 0; 0; 0; 0; 0;
  0; 0; 0; 0; 0; 0; 0; -1728801370029009280; 0; 18440547946976099000; 0; -25816767125766538600;
  0; 0; 0; 0; 0; 0; -288133561671501547; 0; 0; 2016934931700510830; 0; 13830410960232074200;
  0; 0; 0; 0; 6338938356773034030; 0; -110643287681856594000; 0; -64541917814416346400; 0; 0; 0;
  0; 0; 0; 4033869863401021650; 0; -193625753443249039000; 0; 580877260329747118000; 0; 51633534251533077100; 0; 0;
  0; 0; 0; 0; 0; 0; -1440667808357507730; 0; 0; 0; 322709589072081732000; 0;
  -516335342515330771000; 0; 0; 0; 0; 0; 0; 0; 0; 0; 0; 0;
  0; -1440667808357507730; 0; 69152054801160371200; 0; -322709589072081732000; 0; 258167671257665386000; 0; 0; 0; 0;
  0; 0; 0; 0; 0; 0; 0; 0; 0; 0; 0; 0;
  -184892122049355627; 0; 0; 1294244854345489390; 0; 8874821858369070120; 0; 0; 0; 0; 4067626685085823800; 0;
  -70998574866952561000; 0; -41415835339055660600; 0; 0; 0; 0; 0; 0; 2588489708690978780; 0; -124247506017166982000;
  0; 372742518051500945000; 0; 33132668271244528400; 0; 0; 0; 0; 0; 0; 0; 0;
  -924460610246778137; 0; 0; 0; 207079176695278303000; 0; -331326682712445284000; 0; 0; 0; 0; 0;
  0; 0; 0; 0; 0; 0; 0; -924460610246778137; 0; 44374109291845350600; 0; -207079176695278303000;
  0; 165663341356222642000; 0; 0; 0; 0; 0; 0; 0; 0; 0; 0;
  0; 0; 0; 0; 0; 0; 0; 0; -2958273952789690040; 0; 0; 0;
  0; 8874821858369070120; 0; 41415835339055660600; 0; 0; 0; 0; 0; 0; 41415835339055660600; 0;
  -165663341356222642000; 0; -99398004813733585300; 0; 0; 0; 0; 0; 0; 0; 0; 41415835339055660600;
  0; -414158353390556606000; 0; 496990024068667927000; 0; 47332383244635040600; 0; 0; 0; 0; 0; 0;
  0; 0; 0; 0; 8874821858369070120; 0; -165663341356222642000; 0; 496990024068667927000; 0; -283994299467810244000; 0;
  0; 0; 0; 0; 0; 0; 0; 0; 0; 0; 0; 0;
  0; -2958273952789690040; 0; 41415835339055660600; 0; -99398004813733585300; 0; 47332383244635040600; 0; 0; 0; 0;
  0; 0; -2091815572625122380; 0; 0; 0; 0; 6275446717875367130; 0; 29285418016751713300; 0; 0;
  0; 0; 0; 0].
Definition g_trans_cart2jR_dec_23 : list Z := [
  29285418016751713300; 0; -117141672067006853000; 0; -70285003240204111900; 0; 0; 0; 0; 0; 0; 0;
  0; 29285418016751713300; 0; -292854180167517133000; 0; 351425016201020559000; 0; 33469049162001958000; 0; 0; 0; 0;
  0; 0; 0; 0; 0; 0; 6275446717875367130; 0; -117141672067006853000; 0; 351425016201020559000; 0;
  -200814294972011748000; 0; 0; 0; 0; 0; 0; 0; 0; 0; 0; 0;
  0; 0; 0; -2091815572625122380; 0; 29285418016751713300; 0; -70285003240204111900; 0; 33469049162001958000; 0; 0;
  0; 0; 261476946578140297; 0; 0; 261476946578140297; 0; -14642709008375856600; 0; 0; 0; 0;
  -1568861679468841780; 0; 0; 0; 87856254050255139800; 0; 0; 0; 0; 0; 0; -3660677252093964160;
  0; 87856254050255139800; 0; -87856254050255139800; 0; -117141672067006853000; 0; 0; 0; 0; 0; 0;
  0; 0; -2876246412359543270; 0; 117141672067006853000; 0; -439281270251275699000; 0; 234283344134013706000; 0; 33469049162001958000; 0;
  0; 0; 0; 0; 0; 0; 0; 0; 0; -784430839734420891; 0; 43928127025127569900;
  0; -263568762150765419000; 0; 351425016201020559000; 0; -100407147486005874000; 0; 0; 0; 0; 0; 0;
  0; 0; 0; 0; 0; 0; 0; 0; 202539171902860758; 0; 0; 202539171902860758;
  0; -11342193626560202500; 0; 0; 0; 0; -1215235031417164550; 0; 0; 0; 68053161759361214800; 0;
  0; 0; 0; 0; 0; -2835548406640050620; 0; 68053161759361214800; 0; -68053161759361214800; 0; -90737549012481619800;
  0; 0; 0; 0; 0; 0; 0; 0; -2227930890931468340; 0; 90737549012481619800; 0;
  -340265808796806074000; 0; 181475098024963240000; 0; 25925014003566177100; 0; 0; 0; 0; 0; 0; 0;
  0; 0; 0; -607617515708582275; 0; 34026580879680607400; 0; -204159485278083644000; 0; 272212647037444859000; 0; -77775042010698531200;
  0; 0; 0; 0; 0; 0; 0; 0; 0; 0; 0; 0;
  0; 0; 0; 0; 2835548406640050620; 0; 0; 0; 0; 8506645219920151850; 0; -45368774506240809900;
  0; 0; 0; 0; 0; 0; 5671096813280101240; 0; -90737549012481619800; 0; 136106323518722430000; 0;
  0; 0; 0; 0; 0; 0; 0; -5671096813280101240; 0; 0; 0; 136106323518722430000;
  0; -103700056014264708000; 0; 0; 0; 0; 0; 0; 0; 0; 0; 0;
  -8506645219920151850; 0; 90737549012481619800; 0; -136106323518722430000; 0; 0; 0; 17283342669044118100; 0; 0; 0;
  0; 0; 0; 0; 0; 0; 0; 0; 0; -2835548406640050620; 0; 45368774506240809900;
  0; -136106323518722430000; 0; 103700056014264708000; 0; -17283342669044118100; 0; 0; 0; 0; 2396475800360504650; 0;
  0; 0; 0; 7189427401081513940; 0; -38343612805768074300; 0; 0; 0; 0; 0; 0;
  4792951600721009290; 0; -76687225611536148700; 0; 115030838417304223000; 0; 0; 0; 0; 0; 0; 0;
  0; -4792951600721009290; 0; 0; 0; 115030838417304223000; 0; -87642543556041312800; 0; 0; 0; 0;
  0; 0; 0; 0; 0; 0; -7189427401081513940; 0; 76687225611536148700; 0; -115030838417304223000; 0;
  0; 0; 14607090592673552100; 0; 0; 0; 0; 0; 0; 0; 0; 0;
  0; 0; 0; -2396475800360504650; 0; 38343612805768074300; 0; -115030838417304223000; 0; 87642543556041312800; 0; -14607090592673552100;
  0; 0; -239647580036050465; 0; 0; -1198237900180252320; 0; 14378854802163027900; 0; 0; 0; 0;
  -2396475800360504650; 0; 57515419208652111500; 0; -95859032014420185900; 0; 0; 0; 0; 0; 0; -2396475800360504650;
  0; 86273128812978167300; 0; -287577096043260558000; 0; 153374451223072297000; 0; 0; 0; 0; 0; 0;
  0; 0; -1198237900180252320; 0; 57515419208652111500; 0; -287577096043260558000; 0; 306748902446144595000; 0; -65731907667030984600; 0;
  0; 0; 0; 0; 0; 0; 0; 0; 0; -239647580036050465; 0; 14378854802163027900;
  0; -95859032014420185900; 0; 153374451223072297000; 0; -65731907667030984600; 0; 5842836237069420850; 0; 0; 0; 0;
  0; 0; 0; 0; 0; 0; 0; 0; -220443711424950199; 0; 0; -1102218557124750990;
  0; 13226622685497011900; 0; 0; 0; 0; -2204437114249501990; 0; 52906490741988047800; 0; -88177484569980079600; 0;
  0; 0; 0; 0; 0; -2204437114249501990; 0; 79359736112982071600; 0; -264532453709940239000; 0; 141083975311968127000;
  0; 0; 0; 0; 0; 0; 0; 0; -1102218557124750990; 0; 52906490741988047800; 0;
  -264532453709940239000; 0; 282167950623936255000; 0; -60464560847986340300; 0; 0; 0; 0; 0; 0; 0;
  0; 0; 0; -220443711424950199; 0; 13226622685497011900; 0; -88177484569980079600; 0; 141083975311968127000; 0; -60464560847986340300;
  0; 5374627630932119140; 0; 0; 0; 0; 0; 0; 0; 0; 0; 0;
  0; 0; 0; 0; -2645324537099402390; 0; 0; 0; 0; -13226622685497011900; 0; 44088742284990039800;
  0; 0; 0; 0; 0; 0; -26453245370994023900; 0; 176354969139960159000; 0; -141083975311968127000; 0;
  0; 0; 0; 0; 0; 0; 0; -26453245370994023900; 0; 264532453709940239000; 0; -423251925935904382000;
  0; 120929121695972681000; 0; 0; 0; 0; 0; 0; 0; 0; 0; 0;
  -13226622685497011900; 0; 176354969139960159000; 0; -423251925935904382000; 0; 241858243391945361000; 0; -26873138154660595700; 0; 0; 0;
  0; 0; 0; 0; 0; 0; 0; 0; 0; -2645324537099402390; 0; 44088742284990039800;
  0; -141083975311968127000; 0; 120929121695972681000; 0; -26873138154660595700; 0; 977205023805839843; 0; 0; -2645324537099402390; 0;
  0; 0; 0; -13226622685497011900; 0; 44088742284990039800; 0; 0; 0; 0; 0; 0;
  -26453245370994023900; 0; 176354969139960159000; 0; -141083975311968127000; 0; 0; 0; 0; 0; 0; 0;
  0; -26453245370994023900; 0; 264532453709940239000; 0; -423251925935904382000; 0; 120929121695972681000; 0; 0; 0; 0;
  0; 0; 0; 0; 0; 0; -13226622685497011900; 0; 176354969139960159000; 0; -423251925935904382000; 0;
  241858243391945361000; 0; -26873138154660595700; 0; 0; 0; 0; 0; 0; 0; 0; 0;
  0; 0; 0; -2645324537099402390; 0; 44088742284990039800; 0; -141083975311968127000; 0; 120929121695972681000; 0; -26873138154660595700;
  0; 977205023805839843; 220443711424950199; 0; 0; 1102218557124750990; 0; -13226622685497011900; 0; 0; 0; 0;
  2204437114249501990; 0; -52906490741988047800; 0; 88177484569980079600; 0; 0; 0; 0; 0; 0; 2204437114249501990;
  0; -79359736112982071600; 0; 264532453709940239000; 0; -141083975311968127000; 0; 0; 0; 0; 0; 0;
  0; 0; 1102218557124750990; 0; -52906490741988047800; 0; 264532453709940239000; 0; -282167950623936255000; 0; 60464560847986340300; 0;
  0; 0; 0; 0; 0; 0; 0; 0; 0; 220443711424950199; 0; -13226622685497011900;
  0; 88177484569980079600; 0; -141083975311968127000; 0; 60464560847986340300; 0; -5374627630932119140; 0; 0; 0; 0;
  0; 0; 0; 0; 0; 0; 0; 0; 239647580036050465; 0; 0; 1198237900180252320;
  0; -14378854802163027900; 0; 0; 0; 0; 2396475800360504650; 0; -57515419208652111500; 0; 95859032014420185900; 0;
  0; 0; 0; 0; 0; 2396475800360504650; 0; -86273128812978167300; 0; 287577096043260558000; 0; -153374451223072297000;
  0; 0; 0; 0; 0; 0; 0; 0; 1198237900180252320; 0; -57515419208652111500; 0;
  287577096043260558000; 0; -306748902446144595000; 0; 65731907667030984600; 0; 0; 0; 0; 0; 0; 0;
  0; 0; 0; 239647580036050465; 0; -14378854802163027900; 0; 95859032014420185900; 0; -153374451223072297000; 0; 65731907667030984600;
  0; -5842836237069420850; 0; 0; 0; 0; 0; 0; 0; 0; 0; 0;
  0; 0; 0; 0; 2396475800360504650; 0; 0; 0; 0; 7189427401081513940; 0; -38343612805768074300;
  0; 0; 0; 0; 0; 0; 4792951600721009290; 0; -76687225611536148700; 0; 115030838417304223000; 0;
  0; 0; 0; 0; 0; 0; 0; -4792951600721009290; 0; 0; 0; 115030838417304223000;
  0; -87642543556041312800; 0; 0; 0; 0; 0; 0; 0; 0; 0; 0;
  -7189427401081513940; 0; 76687225611536148700; 0; -115030838417304223000; 0; 0; 0; 14607090592673552100; 0; 0; 0;
  0; 0; 0; 0; 0; 0; 0; 0; 0; -2396475800360504650; 0; 38343612805768074300;
  0; -115030838417304223000; 0; 87642543556041312800; 0; -14607090592673552100; 0; 0; 0; 0; 2835548406640050620; 0;
  0; 0; 0; 8506645219920151850; 0; -45368774506240809900; 0; 0; 0; 0; 0; 0;
  5671096813280101240; 0; -90737549012481619800; 0; 136106323518722430000; 0; 0; 0; 0; 0; 0; 0;
  0; -5671096813280101240; 0; 0; 0; 136106323518722430000; 0; -103700056014264708000; 0; 0; 0; 0;
  0; 0; 0; 0; 0; 0; -8506645219920151850; 0; 90737549012481619800; 0; -136106323518722430000; 0;
  0; 0; 17283342669044118100; 0; 0; 0; 0; 0; 0; 0; 0; 0;
  0; 0; 0; -2835548406640050620; 0; 45368774506240809900; 0; -136106323518722430000; 0; 103700056014264708000; 0; -17283342669044118100;
  0; 0; -202539171902860758; 0].
Definition g_trans_cart2jR_dec_24 : list Z := [
  0; -202539171902860758; 0; 11342193626560202500; 0; 0; 0; 0; 1215235031417164550; 0; 0; 0;
  -68053161759361214800; 0; 0; 0; 0; 0; 0; 2835548406640050620; 0; -68053161759361214800; 0; 68053161759361214800;
  0; 90737549012481619800; 0; 0; 0; 0; 0; 0; 0; 0; 2227930890931468340; 0;
  -90737549012481619800; 0; 340265808796806074000; 0; -181475098024963240000; 0; -25925014003566177100; 0; 0; 0; 0; 0;
  0; 0; 0; 0; 0; 607617515708582275; 0; -34026580879680607400; 0; 204159485278083644000; 0; -272212647037444859000;
  0; 77775042010698531200; 0; 0; 0; 0; 0; 0; 0; 0; 0; 0;
  0; 0; 0; 0; -261476946578140297; 0; 0; -261476946578140297; 0; 14642709008375856600; 0; 0;
  0; 0; 1568861679468841780; 0; 0; 0; -87856254050255139800; 0; 0; 0; 0; 0;
  0; 3660677252093964160; 0; -87856254050255139800; 0; 87856254050255139800; 0; 117141672067006853000; 0; 0; 0; 0;
  0; 0; 0; 0; 2876246412359543270; 0; -117141672067006853000; 0; 439281270251275699000; 0; -234283344134013706000; 0;
  -33469049162001958000; 0; 0; 0; 0; 0; 0; 0; 0; 0; 0; 784430839734420891;
  0; -43928127025127569900; 0; 263568762150765419000; 0; -351425016201020559000; 0; 100407147486005874000; 0; 0; 0; 0;
  0; 0; 0; 0; 0; 0; 0; 0; 0; 0; 0; 0;
  -2091815572625122380; 0; 0; 0; 0; 6275446717875367130; 0; 29285418016751713300; 0; 0; 0; 0;
  0; 0; 29285418016751713300; 0; -117141672067006853000; 0; -70285003240204111900; 0; 0; 0; 0; 0;
  0; 0; 0; 29285418016751713300; 0; -292854180167517133000; 0; 351425016201020559000; 0; 33469049162001958000; 0; 0;
  0; 0; 0; 0; 0; 0; 0; 0; 6275446717875367130; 0; -117141672067006853000; 0;
  351425016201020559000; 0; -200814294972011748000; 0; 0; 0; 0; 0; 0; 0; 0; 0;
  0; 0; 0; 0; 0; -2091815572625122380; 0; 29285418016751713300; 0; -70285003240204111900; 0; 33469049162001958000;
  0; 0; 0; 0; 0; 0; -2958273952789690040; 0; 0; 0; 0; 8874821858369070120;
  0; 41415835339055660600; 0; 0; 0; 0; 0; 0; 41415835339055660600; 0; -165663341356222642000; 0;
  -99398004813733585300; 0; 0; 0; 0; 0; 0; 0; 0; 41415835339055660600; 0; -414158353390556606000;
  0; 496990024068667927000; 0; 47332383244635040600; 0; 0; 0; 0; 0; 0; 0; 0;
  0; 0; 8874821858369070120; 0; -165663341356222642000; 0; 496990024068667927000; 0; -283994299467810244000; 0; 0; 0;
  0; 0; 0; 0; 0; 0; 0; 0; 0; 0; 0; -2958273952789690040;
  0; 41415835339055660600; 0; -99398004813733585300; 0; 47332383244635040600; 0; 0; 0; 0; 184892122049355627; 0;
  0; -1294244854345489390; 0; -8874821858369070120; 0; 0; 0; 0; -4067626685085823800; 0; 70998574866952561000; 0;
  41415835339055660600; 0; 0; 0; 0; 0; 0; -2588489708690978780; 0; 124247506017166982000; 0; -372742518051500945000;
  0; -33132668271244528400; 0; 0; 0; 0; 0; 0; 0; 0; 924460610246778137; 0;
  0; 0; -207079176695278303000; 0; 331326682712445284000; 0; 0; 0; 0; 0; 0; 0;
  0; 0; 0; 0; 0; 924460610246778137; 0; -44374109291845350600; 0; 207079176695278303000; 0; -165663341356222642000;
  0; 0; 0; 0; 0; 0; 0; 0; 0; 0; 0; 0;
  0; 0; 0; 0; 288133561671501547; 0; 0; -2016934931700510830; 0; -13830410960232074200; 0; 0;
  0; 0; -6338938356773034030; 0; 110643287681856594000; 0; 64541917814416346400; 0; 0; 0; 0; 0;
  0; -4033869863401021650; 0; 193625753443249039000; 0; -580877260329747118000; 0; -51633534251533077100; 0; 0; 0; 0;
  0; 0; 0; 0; 1440667808357507730; 0; 0; 0; -322709589072081732000; 0; 516335342515330771000; 0;
  0; 0; 0; 0; 0; 0; 0; 0; 0; 0; 0; 1440667808357507730;
  0; -69152054801160371200; 0; 322709589072081732000; 0; -258167671257665386000; 0; 0; 0; 0; 0; 0;
  0; 0; 0; 0; 0; 0; 0; 0; 0; 0; 0; 0;
  1728801370029009280; 0; 0; 0; 0; -22474417810377120600; 0; -18440547946976099000; 0; 0; 0; 0;
  0; 0; -24203219180406129900; 0; 258167671257665386000; 0; 25816767125766538600; 0; 0; 0; 0; 0;
  0; 0; 0; 24203219180406129900; 0; 0; 0; -387251506886498079000; 0; 0; 0; 0;
  0; 0; 0; 0; 0; 0; 0; 0; 22474417810377120600; 0; -258167671257665386000; 0;
  387251506886498079000; 0; 0; 0; 0; 0; 0; 0; 0; 0; 0; 0;
  0; 0; 0; 0; 0; -1728801370029009280; 0; 18440547946976099000; 0; -25816767125766538600; 0; 0;
  0; 0; 0; 0; 0; 0; 2994371809084926980; 0; 0; 0; 0; -38926833518104050700;
  0; -31939965963572554500; 0; 0; 0; 0; 0; 0; -41921205327188977700; 0; 447159523490015762000; 0;
  44715952349001576200; 0; 0; 0; 0; 0; 0; 0; 0; 41921205327188977700; 0; 0;
  0; -670739285235023644000; 0; 0; 0; 0; 0; 0; 0; 0; 0; 0;
  0; 0; 38926833518104050700; 0; -447159523490015762000; 0; 670739285235023644000; 0; 0; 0; 0; 0;
  0; 0; 0; 0; 0; 0; 0; 0; 0; 0; 0; -2994371809084926980;
  0; 31939965963572554500; 0; -44715952349001576200; 0; 0; 0; 0; 0; 0; -166353989393607054; 0;
  0; 3160725798478534030; 0; 5988743618169853960; 0; 0; 0; 0; 998123936361642327; 0; -119774872363397079000; 0;
  -15969982981786277200; 0; 0; 0; 0; 0; 0; -6986867554531496290; 0; 83842410654377955500; 0; 335369642617511822000;
  0; 0; 0; 0; 0; 0; 0; 0; 0; 0; -3493433777265748140; 0;
  167684821308755911000; 0; -558949404362519703000; 0; 0; 0; 0; 0; 0; 0; 0; 0;
  0; 0; 0; 0; 0; 1164477925755249380; 0; -41921205327188977700; 0; 111789880872503941000; 0; 0;
  0; 0; 0; 0; 0; 0; 0; 0; 0; 0; 0; 0;
  0; 0; 0; 0; -324283624611603920; 0; 0; 6161388867620474490; 0; 11674210486017741100; 0; 0;
  0; 0; 1945701747669623520; 0; -233484209720354823000; 0; -31131227962713976300; 0; 0; 0; 0; 0;
  0; -13619912233687364700; 0; 163438946804248376000; 0; 653755787216993503000; 0; 0; 0; 0; 0; 0;
  0; 0; 0; 0; -6809956116843682330; 0; 326877893608496752000; 0; -1089592978694989170000; 0; 0; 0;
  0; 0; 0; 0; 0; 0; 0; 0; 0; 0; 0; 2269985372281227440;
  0; -81719473402124187900; 0; 217918595738997834000; 0; 0; 0; 0; 0; 0; 0; 0;
  0; 0; 0; 0; 0; 0; 0; 0; 0; 0; 0; 0;
  -1297134498446415680; 0; 0; 0; 0; 35022631458053223400; 0; 7782806990678494090; 0; 0; 0; 0;
  0; 0; -54479648934749458600; 0; -217918595738997834000; 0; 0; 0; 0; 0; 0; 0;
  0; 0; 0; -54479648934749458600; 0; 544796489347494586000; 0; 0; 0; 0; 0; 0;
  0; 0; 0; 0; 0; 0; 0; 0; 35022631458053223400; 0; -217918595738997834000; 0;
  0; 0; 0; 0; 0; 0; 0; 0; 0; 0; 0; 0;
  0; 0; 0; 0; 0; -1297134498446415680; 0; 7782806990678494090; 0; 0; 0; 0;
  0; 0; 0; 0; 0; 0; -2900480914486280810; 0; 0; 0; 0; 78312984691129581900;
  0; 17402885486917684900; 0; 0; 0; 0; 0; 0; -121820198408423794000; 0; -487280793633695176000; 0;
  0; 0; 0; 0; 0; 0; 0; 0; 0; -121820198408423794000; 0; 1218201984084237940000;
  0; 0; 0; 0; 0; 0; 0; 0; 0; 0; 0; 0;
  0; 0; 78312984691129581900; 0; -487280793633695176000; 0; 0; 0; 0; 0; 0; 0;
  0; 0; 0; 0; 0; 0; 0; 0; 0; 0; 0; -2900480914486280810;
  0; 17402885486917684900; 0; 0; 0; 0; 0; 0; 0; 0; 145024045724314041; 0;
  0; -5075841600350991420; 0; -2900480914486280810; 0; 0; 0; 0; 13052164115188263700; 0; 104417312921506109000; 0;
  0; 0; 0; 0; 0; 0; 0; 6091009920421189710; 0; -365460595225271382000; 0; 0;
  0; 0; 0; 0; 0; 0; 0; 0; 0; 0; -10876803429323553000; 0;
  243640396816847588000; 0; 0; 0; 0; 0; 0; 0; 0; 0; 0; 0;
  0; 0; 0; 0; 0; 1305216411518826370; 0; -26104328230376527300; 0; 0; 0; 0;
  0; 0; 0; 0].
Definition g_trans_cart2jR_dec_25 : list Z := [
  0; 0; 0; 0; 0; 0; 0; 0; 0; 0; 0; 0;
  383697559110995006; 0; 0; -13429414568884825200; 0; -7673951182219900130; 0; 0; 0; 0; 34532780319989550600; 0;
  276262242559916405000; 0; 0; 0; 0; 0; 0; 0; 0; 16115297482661790300; 0; -966917848959707416000;
  0; 0; 0; 0; 0; 0; 0; 0; 0; 0; 0; 0;
  -28777316933324625500; 0; 644611899306471611000; 0; 0; 0; 0; 0; 0; 0; 0; 0;
  0; 0; 0; 0; 0; 0; 0; 3453278031998955060; 0; -69065560639979101100; 0; 0;
  0; 0; 0; 0; 0; 0; 0; 0; 0; 0; 0; 0;
  0; 0; 0; 0; 0; 0; 0; 0; 767395118221990013; 0; 0; 0;
  0; -34532780319989550600; 0; 0; 0; 0; 0; 0; 0; 0; 161152974826617903000; 0;
  0; 0; 0; 0; 0; 0; 0; 0; 0; 0; 0; -161152974826617903000;
  0; 0; 0; 0; 0; 0; 0; 0; 0; 0; 0; 0;
  0; 0; 0; 0; 34532780319989550600; 0; 0; 0; 0; 0; 0; 0;
  0; 0; 0; 0; 0; 0; 0; 0; 0; 0; 0; 0;
  0; -767395118221990013; 0; 0; 0; 0; 0; 0; 0; 0; 0; 0;
  0; 0; 2545161673092764910; 0; 0; 0; 0; -114532275289174421000; 0; 0; 0; 0;
  0; 0; 0; 0; 534483951349480631000; 0; 0; 0; 0; 0; 0; 0;
  0; 0; 0; 0; 0; -534483951349480631000; 0; 0; 0; 0; 0; 0;
  0; 0; 0; 0; 0; 0; 0; 0; 0; 0; 114532275289174421000; 0;
  0; 0; 0; 0; 0; 0; 0; 0; 0; 0; 0; 0;
  0; 0; 0; 0; 0; 0; 0; -2545161673092764910; 0; 0; 0; 0;
  0; 0; 0; 0; 0; 0; -115689166958762041; 0; 0; 6362904182731912270; 0; 0;
  0; 0; 0; 0; -38177425096391473600; 0; 0; 0; 0; 0; 0; 0;
  0; 0; 0; 53448395134948063100; 0; 0; 0; 0; 0; 0; 0; 0;
  0; 0; 0; 0; 0; 0; -19088712548195736800; 0; 0; 0; 0; 0;
  0; 0; 0; 0; 0; 0; 0; 0; 0; 0; 0; 0;
  0; 1272580836546382450; 0; 0; 0; 0; 0; 0; 0; 0; 0; 0;
  0; 0; 0; 0; 0; 0; 0; 0; 0; 0; 0; 0;
  -554825753806619302; 0; 0; 30515416459364061600; 0; 0; 0; 0; 0; 0; -183092498756184370000; 0;
  0; 0; 0; 0; 0; 0; 0; 0; 0; 256329498258658117000; 0; 0;
  0; 0; 0; 0; 0; 0; 0; 0; 0; 0; 0; 0;
  -91546249378092184800; 0; 0; 0; 0; 0; 0; 0; 0; 0; 0; 0;
  0; 0; 0; 0; 0; 0; 0; 6103083291872812320; 0; 0; 0; 0;
  0; 0; 0; 0; 0; 0; 0; 0; 0; 0; 0; 0;
  0; 0; 0; 0; 0; 0; 0; 0; 0; 0; 0; 0;
  0; 0; 0; 0; 0; 0; 0; 0; 0; 0; 0; 0;
  0; 0; 0; 0; 0; 0; 0; 0; 0; 0; 0; 0;
  0; 0; 0; 0; 0; 0; 0; 0; 0; 0; 0; 0;
  0; 0; 0; 0; 0; 0; 0; 0; 0; 0; 0; 0;
  0; 0; 0; 0; 0; 0; 0; 0; 0; 0; 0; 0;
  0; 0; 0; 0; 0; 0; 0; 0; 0; 0; 0; 0;
  -554825753806619302; 0; 0; 36618499751236873900; 0; 0; 0; 0; 0; 0; -274638748134276554000; 0;
  0; 0; 0; 0; 0; 0; 0; 0; 0; 512658996517316235000; 0; 0;
  0; 0; 0; 0; 0; 0; 0; 0; 0; 0; 0; 0;
  -274638748134276554000; 0; 0; 0; 0; 0; 0; 0; 0; 0; 0; 0;
  0; 0; 0; 0; 0; 0; 0; 36618499751236873900; 0; 0; 0; 0;
  0; 0; 0; 0; 0; 0; 0; 0; 0; 0; 0; 0;
  0; 0; 0; 0; 0; 0; -554825753806619302; 0; 0; 0; 0; 0;
  0; 0; 0; 0; 0; 0; 0; 0; 0; 554825753806619302; 0; 0;
  0; 0; -30515416459364061600; 0; 0; 0; 0; 0; 0; 0; 0; 183092498756184370000;
  0; 0; 0; 0; 0; 0; 0; 0; 0; 0; 0; 0;
  -256329498258658117000; 0; 0; 0; 0; 0; 0; 0; 0; 0; 0; 0;
  0; 0; 0; 0; 0; 91546249378092184800; 0; 0; 0; 0; 0; 0;
  0; 0; 0; 0; 0; 0; 0; 0; 0; 0; 0; 0;
  0; 0; -6103083291872812320; 0; 0; 0; 0; 0; 0; 0; 0; 0;
  0; 0; 0; 0; 0; 0; 0; 0; 0; 0; 0; 0;
  0; 0; 0; 0; -2660850840051526950; 0; 0; 0; 0; 146346796202833982000; 0; 0;
  0; 0; 0; 0; 0; 0; -878080777217003893000; 0; 0; 0; 0; 0;
  0; 0; 0; 0; 0; 0; 0; 1229313088103805450000; 0; 0; 0; 0;
  0; 0; 0; 0; 0; 0; 0; 0; 0; 0; 0; 0;
  -439040388608501947000; 0; 0; 0; 0; 0; 0; 0; 0; 0; 0; 0;
  0; 0; 0; 0; 0; 0; 0; 0; 0; 29269359240566796400; 0; 0;
  0; 0; 0; 0; 0; 0; 0; 0; 0; 0; 0; 0;
  0; 0; 0; 0; 0; 0; 0; 0; 0; -115689166958762041; 0; 0;
  5090323346185529820; 0; 2545161673092764910; 0; 0; 0; 0; -19088712548195736800; 0; -114532275289174421000; 0; 0;
  0; 0; 0; 0; 0; 0; 0; 0; 534483951349480631000; 0; 0; 0;
  0; 0; 0; 0; 0; 0; 0; 0; 0; 19088712548195736800; 0; -534483951349480631000;
  0; 0; 0; 0; 0; 0; 0; 0; 0; 0; 0; 0;
  0; 0; 0; 0; -5090323346185529820; 0; 114532275289174421000; 0; 0; 0; 0; 0;
  0; 0; 0; 0; 0; 0; 0; 0; 0; 0; 0; 0;
  0; 0; 0; 115689166958762041; 0; -2545161673092764910; 0; 0; 0; 0; 0; 0;
  0; 0; 0; 0; 383697559110995006; 0; 0; -16882692600883780300; 0; -8441346300441890140; 0; 0;
  0; 0; 63310097253314176000; 0; 379860583519885056000; 0; 0; 0; 0; 0; 0; 0;
  0; 0; 0; -1772682723092796930000; 0; 0; 0; 0; 0; 0; 0; 0;
  0; 0; 0; 0; -63310097253314176000; 0; 1772682723092796930000; 0; 0; 0; 0; 0;
  0; 0; 0; 0; 0; 0; 0; 0; 0; 0; 0; 16882692600883780300;
  0; -379860583519885056000; 0; 0; 0; 0; 0; 0; 0; 0; 0; 0;
  0; 0; 0; 0; 0; 0; 0; 0; 0; 0; -383697559110995006; 0;
  8441346300441890140; 0; 0; 0; 0; 0; 0; 0; 0; 0; 0; 0;
  0; -1151092677332985020; 0; 0; 0; 0; 40288243706654475700; 0; 7673951182219900130; 0; 0; 0;
  0; 0; 0; -103598340959968652000; 0; -276262242559916405000; 0; 0; 0; 0; 0; 0;
  0; 0; 0; 0; -48345892447985370800; 0; 966917848959707416000; 0; 0; 0; 0; 0;
  0; 0; 0; 0; 0; 0; 0; 0; 0; 86331950799973876400; 0; -644611899306471611000;
  0; 0; 0; 0; 0; 0; 0; 0; 0; 0; 0; 0;
  0; 0; 0; 0].
Definition g_trans_cart2jR_dec_26 : list Z := [
  0; 0; -10359834095996865200; 0; 69065560639979101100; 0; 0; 0; 0; 0; 0; 0;
  0; 0; 0; 0; 0; 0; 0; 0; 0; 0; 0; 0;
  0; 0; 0; 0; 3045504960210594850; 0; 0; 0; 0; -106592673607370820000; 0; -20303366401403965700;
  0; 0; 0; 0; 0; 0; 274095446418953537000; 0; 730921190450542765000; 0; 0; 0;
  0; 0; 0; 0; 0; 0; 0; 127911208328844984000; 0; -2558224166576899680000; 0; 0;
  0; 0; 0; 0; 0; 0; 0; 0; 0; 0; 0; 0;
  -228412872015794614000; 0; 1705482777717933120000; 0; 0; 0; 0; 0; 0; 0; 0; 0;
  0; 0; 0; 0; 0; 0; 0; 0; 0; 27409544641895353700; 0; -182730297612635691000;
  0; 0; 0; 0; 0; 0; 0; 0; 0; 0; 0; 0;
  0; 0; 0; 0; 0; 0; 0; 0; 0; 145024045724314041; 0; 0;
  -3770625188832165060; 0; -5800961828972561620; 0; 0; 0; 0; 2175360685864710610; 0; 156625969382259164000; 0; 17402885486917684900;
  0; 0; 0; 0; 0; 0; 12182019840842379400; 0; -243640396816847588000; 0; -487280793633695176000; 0;
  0; 0; 0; 0; 0; 0; 0; 0; 0; 2175360685864710610; 0; -243640396816847588000;
  0; 1218201984084237940000; 0; 0; 0; 0; 0; 0; 0; 0; 0; 0;
  0; 0; 0; 0; -3770625188832165060; 0; 156625969382259164000; 0; -487280793633695176000; 0; 0; 0;
  0; 0; 0; 0; 0; 0; 0; 0; 0; 0; 0; 0;
  0; 0; 0; 145024045724314041; 0; -5800961828972561620; 0; 17402885486917684900; 0; 0; 0; 0;
  0; 0; 0; 0; -324283624611603920; 0; 0; 8431374239901701930; 0; 12971344984464156800; 0; 0;
  0; 0; -4864254369174058800; 0; -350226314580532234000; 0; -38914034953392470400; 0; 0; 0; 0; 0;
  0; -27239824467374729300; 0; 544796489347494586000; 0; 1089592978694989170000; 0; 0; 0; 0; 0; 0;
  0; 0; 0; 0; -4864254369174058800; 0; 544796489347494586000; 0; -2723982446737472930000; 0; 0; 0;
  0; 0; 0; 0; 0; 0; 0; 0; 0; 0; 0; 8431374239901701930;
  0; -350226314580532234000; 0; 1089592978694989170000; 0; 0; 0; 0; 0; 0; 0; 0;
  0; 0; 0; 0; 0; 0; 0; 0; 0; 0; -324283624611603920; 0;
  12971344984464156800; 0; -38914034953392470400; 0; 0; 0; 0; 0; 0; 0; 0; 0;
  0; 1621418123058019600; 0; 0; 0; 0; -30806944338102372400; 0; -19457017476696235200; 0; 0; 0;
  0; 0; 0; -9728508738348117610; 0; 389140349533924704000; 0; 31131227962713976300; 0; 0; 0; 0;
  0; 0; 0; 0; 68099561168436823300; 0; -272398244673747293000; 0; -653755787216993503000; 0; 0; 0;
  0; 0; 0; 0; 0; 0; 0; 0; 0; 34049780584218411600; 0; -544796489347494586000;
  0; 1089592978694989170000; 0; 0; 0; 0; 0; 0; 0; 0; 0; 0;
  0; 0; 0; 0; 0; 0; -11349926861406137200; 0; 136199122336873647000; 0; -217918595738997834000; 0;
  0; 0; 0; 0; 0; 0; 0; 0; 0; 0; 0; 0;
  0; 0; 0; 0; 0; 0; 0; 0; -3160725798478534030; 0; 0; 0;
  0; 60053790171092146700; 0; 37928709581742408400; 0; 0; 0; 0; 0; 0; 18964354790871204200; 0;
  -758574191634848168000; 0; -60685935330787853500; 0; 0; 0; 0; 0; 0; 0; 0; -132750483536098429000;
  0; 531001934144393718000; 0; 1274404641946544920000; 0; 0; 0; 0; 0; 0; 0; 0;
  0; 0; 0; 0; -66375241768049214700; 0; 1062003868288787440000; 0; -2124007736577574870000; 0; 0; 0;
  0; 0; 0; 0; 0; 0; 0; 0; 0; 0; 0; 0;
  0; 22125080589349738200; 0; -265500967072196859000; 0; 424801547315514974000; 0; 0; 0; 0; 0; 0;
  0; 0; 0; 0; 0; 0; 0; 0; 0; 0; 0; 0;
  0; -166353989393607054; 0; 0; 1996247872723284650; 0; 8983115427254780940; 0; 0; 0; 0; 4491557713627390470;
  0; -116780500554312152000; 0; -47909948945358831700; 0; 0; 0; 0; 0; 0; 0; 0;
  -125763615981566933000; 0; 670739285235023644000; 0; 44715952349001576200; 0; 0; 0; 0; 0; 0; 0;
  0; -4491557713627390470; 0; 125763615981566933000; 0; 0; 0; -670739285235023644000; 0; 0; 0; 0;
  0; 0; 0; 0; 0; 0; 0; 0; -1996247872723284650; 0; 116780500554312152000; 0;
  -670739285235023644000; 0; 670739285235023644000; 0; 0; 0; 0; 0; 0; 0; 0; 0;
  0; 0; 0; 0; 0; 0; 0; 166353989393607054; 0; -8983115427254780940; 0; 47909948945358831700;
  0; -44715952349001576200; 0; 0; 0; 0; 0; 0; 288133561671501547; 0; 0; -3457602740058018560;
  0; -15559212330261083500; 0; 0; 0; 0; -7779606165130541760; 0; 202269760293394086000; 0; 82982465761392445400; 0;
  0; 0; 0; 0; 0; 0; 0; 217828972623655169000; 0; -1161754520659494240000; 0; -77450301377299615700;
  0; 0; 0; 0; 0; 0; 0; 0; 7779606165130541760; 0; -217828972623655169000; 0;
  0; 0; 1161754520659494240000; 0; 0; 0; 0; 0; 0; 0; 0; 0;
  0; 0; 0; 3457602740058018560; 0; -202269760293394086000; 0; 1161754520659494240000; 0; -1161754520659494240000; 0; 0;
  0; 0; 0; 0; 0; 0; 0; 0; 0; 0; 0; 0;
  0; 0; -288133561671501547; 0; 15559212330261083500; 0; -82982465761392445400; 0; 77450301377299615700; 0; 0; 0;
  0; 0; 0; 0; 0; -2016934931700510830; 0; 0; 0; 0; 14118544521903575800; 0;
  32270958907208173200; 0; 0; 0; 0; 0; 0; 44372568497411238200; 0; -258167671257665386000; 0; -90358684940182885000;
  0; 0; 0; 0; 0; 0; 0; 0; 28237089043807151600; 0; -451793424700914425000; 0;
  813228164461645965000; 0; 51633534251533077100; 0; 0; 0; 0; 0; 0; 0; 0; 0;
  0; -10084674658502554100; 0; 0; 0; 451793424700914425000; 0; -516335342515330771000; 0; 0; 0; 0;
  0; 0; 0; 0; 0; 0; 0; 0; 0; 0; -10084674658502554100; 0;
  161354794536040866000; 0; -451793424700914425000; 0; 258167671257665386000; 0; 0; 0; 0; 0; 0; 0;
  0; 0; 0; 0; 0; 0; 0; 0; 0; 0; 0; 0;
  3143166074839045670; 0; 0; 0; 0; -22002162523873319700; 0; -50290657197424730700; 0; 0; 0; 0;
  0; 0; -69149653646459004700; 0; 402325257579397845000; 0; 140813840152789246000; 0; 0; 0; 0; 0;
  0; 0; 0; -44004325047746639300; 0; 704069200763946230000; 0; -1267324561375103210000; 0; -80465051515879569100; 0; 0;
  0; 0; 0; 0; 0; 0; 0; 0; 15715830374195228300; 0; 0; 0;
  -704069200763946230000; 0; 804650515158795691000; 0; 0; 0; 0; 0; 0; 0; 0; 0;
  0; 0; 0; 0; 0; 15715830374195228300; 0; -251453285987123653000; 0; 704069200763946230000; 0; -402325257579397845000;
  0; 0; 0; 0; 0; 0; 0; 0; 0; 0; 0; 0;
  0; 0; 0; 0; 0; 184892122049355627; 0; 0; -369784244098711255; 0; -11833095811158760200; 0;
  0; 0; 0; -3143166074839045670; 0; 35499287433476280500; 0; 82831670678111321100; 0; 0; 0; 0;
  0; 0; -5176979417381957570; 0; 165663341356222642000; 0; -331326682712445284000; 0; -132530673084978114000; 0; 0; 0;
  0; 0; 0; 0; 0; -3143166074839045670; 0; 165663341356222642000; 0; -828316706781113211000; 0; 662653365424890569000;
  0; 47332383244635040600; 0; 0; 0; 0; 0; 0; 0; 0; 0; 0;
  -369784244098711255; 0; 35499287433476280500; 0; -331326682712445284000; 0; 662653365424890569000; 0; -283994299467810244000; 0; 0; 0;
  0; 0; 0; 0; 0; 0; 0; 0; 0; 0; 0; 184892122049355627;
  0; -11833095811158760200; 0; 82831670678111321100; 0; -132530673084978114000; 0; 47332383244635040600; 0; 0; 0; 0;
  -261476946578140297; 0; 0; 522953893156280594; 0; 16734524581000979000; 0; 0; 0; 0; 4445108091828385050; 0;
  -50203573743002937000; 0; -117141672067006853000; 0; 0; 0; 0; 0; 0; 7321354504187928320; 0; -234283344134013706000;
  0; 468566688268027412000; 0; 187426675307210965000; 0; 0; 0; 0; 0; 0; 0; 0;
  4445108091828385050; 0; -234283344134013706000; 0; 1171416720670068530000; 0; -937133376536054825000; 0; -66938098324003916000; 0; 0; 0;
  0; 0; 0; 0; 0; 0; 0; 522953893156280594; 0; -50203573743002937000; 0; 468566688268027412000;
  0; -937133376536054825000; 0; 401628589944023496000].
Definition g_trans_cart2jR_dec_27 : list Z := [
  0; 0; 0; 0; 0; 0; 0; 0; 0; 0; 0; 0;
  0; 0; -261476946578140297; 0; 16734524581000979000; 0; -117141672067006853000; 0; 187426675307210965000; 0; -66938098324003916000; 0;
  0; 0; 0; 0; 0; 2353292519203262670; 0; 0; 0; 0; 2353292519203262670; 0;
  -43928127025127569900; 0; 0; 0; 0; 0; 0; -14119755115219576000; 0; 0; 0; 158141257290459252000;
  0; 0; 0; 0; 0; 0; 0; 0; -32946095268845677400; 0; 263568762150765419000; 0;
  -158141257290459252000; 0; -150610721229008811000; 0; 0; 0; 0; 0; 0; 0; 0; 0;
  0; -25886217711235889400; 0; 351425016201020559000; 0; -790706286452296258000; 0; 301221442458017622000; 0; 33469049162001958000; 0; 0;
  0; 0; 0; 0; 0; 0; 0; 0; 0; 0; -7059877557609788020; 0;
  131784381075382710000; 0; -474423771871377755000; 0; 451832163687026433000; 0; -100407147486005874000; 0; 0; 0; 0; 0;
  0; 0; 0; 0; 0; 0; 0; 0; 0; 0; 0; 0;
  -3038087578542911380; 0; 0; 0; 0; -3038087578542911380; 0; 56710968132801012400; 0; 0; 0; 0;
  0; 0; 18228525471257468300; 0; 0; 0; -204159485278083644000; 0; 0; 0; 0; 0;
  0; 0; 0; 42533226099600759300; 0; -340265808796806074000; 0; 204159485278083644000; 0; 194437605026746328000; 0; 0;
  0; 0; 0; 0; 0; 0; 0; 0; 33418963363972025100; 0; -453687745062408099000; 0;
  1020797426390418220000; 0; -388875210053492656000; 0; -43208356672610295100; 0; 0; 0; 0; 0; 0; 0;
  0; 0; 0; 0; 0; 9114262735628734130; 0; -170132904398403037000; 0; 612478455834250933000; 0; -583312815080238984000;
  0; 129625070017830885000; 0; 0; 0; 0; 0; 0; 0; 0; 0; 0;
  0; 0; 0; 0; 0; -202539171902860758; 0; 0; -810156687611443034; 0; 14177742033200253100; 0;
  0; 0; 0; -1012695859514303790; 0; 42533226099600759300; 0; -113421936265602025000; 0; 0; 0; 0;
  0; 0; 0; 0; 28355484066400506200; 0; -226843872531204049000; 0; 226843872531204049000; 0; 0; 0;
  0; 0; 0; 0; 0; 1012695859514303790; 0; -28355484066400506200; 0; 0; 0; 226843872531204049000;
  0; -129625070017830885000; 0; 0; 0; 0; 0; 0; 0; 0; 0; 0;
  810156687611443034; 0; -42533226099600759300; 0; 226843872531204049000; 0; -226843872531204049000; 0; 0; 0; 17283342669044118100; 0;
  0; 0; 0; 0; 0; 0; 0; 0; 0; 0; 0; 202539171902860758;
  0; -14177742033200253100; 0; 113421936265602025000; 0; -226843872531204049000; 0; 129625070017830885000; 0; -17283342669044118100; 0; 0;
  239647580036050465; 0; 0; 958590320144201859; 0; -16775330602523532500; 0; 0; 0; 0; 1198237900180252320; 0;
  -50325991807570597600; 0; 134202644820188260000; 0; 0; 0; 0; 0; 0; 0; 0; -33550661205047065100;
  0; 268405289640376520000; 0; -268405289640376520000; 0; 0; 0; 0; 0; 0; 0; 0;
  -1198237900180252320; 0; 33550661205047065100; 0; 0; 0; -268405289640376520000; 0; 153374451223072297000; 0; 0; 0;
  0; 0; 0; 0; 0; 0; 0; -958590320144201859; 0; 50325991807570597600; 0; -268405289640376520000;
  0; 268405289640376520000; 0; 0; 0; -20449926829742973000; 0; 0; 0; 0; 0; 0;
  0; 0; 0; 0; 0; 0; -239647580036050465; 0; 16775330602523532500; 0; -134202644820188260000; 0;
  268405289640376520000; 0; -153374451223072297000; 0; 20449926829742973000; 0; 0; 0; 0; -2636123380396555110; 0; 0;
  0; 0; -13180616901982775600; 0; 52722467607931102200; 0; 0; 0; 0; 0; 0; -26361233803965551100;
  0; 210889870431724409000; 0; -210889870431724409000; 0; 0; 0; 0; 0; 0; 0; 0;
  -26361233803965551100; 0; 316334805647586613000; 0; -632669611295173227000; 0; 241016994779113610000; 0; 0; 0; 0; 0;
  0; 0; 0; 0; 0; -13180616901982775600; 0; 210889870431724409000; 0; -632669611295173227000; 0; 482033989558227220000;
  0; -80338998259704536700; 0; 0; 0; 0; 0; 0; 0; 0; 0; 0;
  0; 0; -2636123380396555110; 0; 52722467607931102200; 0; -210889870431724409000; 0; 241016994779113610000; 0; -80338998259704536700; 0;
  5842836237069420850; 0; 0; 0; 0; 0; 0; 0; 0; 0; 0; 0;
  0; 0; 0; 0; 2865768248524352590; 0; 0; 0; 0; 14328841242621762900; 0; -57315364970487051700;
  0; 0; 0; 0; 0; 0; 28657682485243525900; 0; -229261459881948207000; 0; 229261459881948207000; 0;
  0; 0; 0; 0; 0; 0; 0; 28657682485243525900; 0; -343892189822922310000; 0; 687784379645844621000;
  0; -262013097007940808000; 0; 0; 0; 0; 0; 0; 0; 0; 0; 0;
  14328841242621762900; 0; -229261459881948207000; 0; 687784379645844621000; 0; -524026194015881616000; 0; 87337699002646936000; 0; 0; 0;
  0; 0; 0; 0; 0; 0; 0; 0; 0; 2865768248524352590; 0; -57315364970487051700;
  0; 229261459881948207000; 0; -262013097007940808000; 0; 87337699002646936000; 0; -6351832654737958980; 0; 0; 0; 0;
  0; 0; 0; 0; 0; 0; 0; 0; 0; 220443711424950199; 0; 0;
  1322662268549701190; 0; -15871947222596414300; 0; 0; 0; 0; 3306655671374252980; 0; -79359736112982071600; 0; 132266226854970119000;
  0; 0; 0; 0; 0; 0; 4408874228499003980; 0; -158719472225964143000; 0; 529064907419880478000; 0;
  -282167950623936255000; 0; 0; 0; 0; 0; 0; 0; 0; 3306655671374252980; 0; -158719472225964143000;
  0; 793597361129820716000; 0; -846503851871808764000; 0; 181393682543959021000; 0; 0; 0; 0; 0; 0;
  0; 0; 0; 0; 1322662268549701190; 0; -79359736112982071600; 0; 529064907419880478000; 0; -846503851871808764000; 0;
  362787365087918042000; 0; -32247765785592714800; 0; 0; 0; 0; 0; 0; 0; 0; 0;
  0; 0; 0; 220443711424950199; 0; -15871947222596414300; 0; 132266226854970119000; 0; -282167950623936255000; 0; 181393682543959021000;
  0; -32247765785592714800; 0; 977205023805839843; -220443711424950199; 0; 0; -1322662268549701190; 0; 15871947222596414300; 0; 0;
  0; 0; -3306655671374252980; 0; 79359736112982071600; 0; -132266226854970119000; 0; 0; 0; 0; 0;
  0; -4408874228499003980; 0; 158719472225964143000; 0; -529064907419880478000; 0; 282167950623936255000; 0; 0; 0; 0;
  0; 0; 0; 0; -3306655671374252980; 0; 158719472225964143000; 0; -793597361129820716000; 0; 846503851871808764000; 0;
  -181393682543959021000; 0; 0; 0; 0; 0; 0; 0; 0; 0; 0; -1322662268549701190;
  0; 79359736112982071600; 0; -529064907419880478000; 0; 846503851871808764000; 0; -362787365087918042000; 0; 32247765785592714800; 0; 0;
  0; 0; 0; 0; 0; 0; 0; 0; 0; 0; -220443711424950199; 0;
  15871947222596414300; 0; -132266226854970119000; 0; 282167950623936255000; 0; -181393682543959021000; 0; 32247765785592714800; 0; -977205023805839843; 0;
  0; 2865768248524352590; 0; 0; 0; 0; 14328841242621762900; 0; -57315364970487051700; 0; 0; 0;
  0; 0; 0; 28657682485243525900; 0; -229261459881948207000; 0; 229261459881948207000; 0; 0; 0; 0;
  0; 0; 0; 0; 28657682485243525900; 0; -343892189822922310000; 0; 687784379645844621000; 0; -262013097007940808000; 0;
  0; 0; 0; 0; 0; 0; 0; 0; 0; 14328841242621762900; 0; -229261459881948207000;
  0; 687784379645844621000; 0; -524026194015881616000; 0; 87337699002646936000; 0; 0; 0; 0; 0; 0;
  0; 0; 0; 0; 0; 0; 2865768248524352590; 0; -57315364970487051700; 0; 229261459881948207000; 0;
  -262013097007940808000; 0; 87337699002646936000; 0; -6351832654737958980; 0; 0; 0; 0; 0; 0; 0;
  0; 0; 0; 0; 0; 0; 0; 0; -2636123380396555110; 0; 0; 0;
  0; -13180616901982775600; 0; 52722467607931102200; 0; 0; 0; 0; 0; 0; -26361233803965551100; 0;
  210889870431724409000; 0; -210889870431724409000; 0; 0; 0; 0; 0; 0; 0; 0; -26361233803965551100;
  0; 316334805647586613000; 0; -632669611295173227000; 0; 241016994779113610000; 0; 0; 0; 0; 0; 0;
  0; 0; 0; 0; -13180616901982775600; 0; 210889870431724409000; 0; -632669611295173227000; 0; 482033989558227220000; 0;
  -80338998259704536700; 0; 0; 0; 0; 0; 0; 0; 0; 0; 0; 0;
  0; -2636123380396555110; 0; 52722467607931102200; 0; -210889870431724409000; 0; 241016994779113610000; 0; -80338998259704536700; 0; 5842836237069420850;
  0; 0; 0; 0; 0; 0; 0; 0; 0; 0; 0; 0;
  0; -239647580036050465; 0; 0; -958590320144201859; 0; 16775330602523532500; 0; 0; 0; 0; -1198237900180252320;
  0; 50325991807570597600; 0; -134202644820188260000; 0; 0; 0; 0; 0; 0; 0; 0;
  33550661205047065100; 0; -268405289640376520000; 0; 268405289640376520000; 0; 0; 0; 0; 0; 0; 0;
  0; 1198237900180252320; 0; -33550661205047065100; 0; 0; 0; 268405289640376520000; 0; -153374451223072297000; 0; 0;
  0; 0; 0; 0; 0; 0; 0; 0; 958590320144201859; 0; -50325991807570597600; 0;
  268405289640376520000; 0; -268405289640376520000; 0].
Definition g_trans_cart2jR_dec_28 : list Z := [
  0; 0; 20449926829742973000; 0; 0; 0; 0; 0; 0; 0; 0; 0;
  0; 0; 0; 239647580036050465; 0; -16775330602523532500; 0; 134202644820188260000; 0; -268405289640376520000; 0; 153374451223072297000;
  0; -20449926829742973000; 0; 0; 202539171902860758; 0; 0; 810156687611443034; 0; -14177742033200253100; 0; 0;
  0; 0; 1012695859514303790; 0; -42533226099600759300; 0; 113421936265602025000; 0; 0; 0; 0; 0;
  0; 0; 0; -28355484066400506200; 0; 226843872531204049000; 0; -226843872531204049000; 0; 0; 0; 0;
  0; 0; 0; 0; -1012695859514303790; 0; 28355484066400506200; 0; 0; 0; -226843872531204049000; 0;
  129625070017830885000; 0; 0; 0; 0; 0; 0; 0; 0; 0; 0; -810156687611443034;
  0; 42533226099600759300; 0; -226843872531204049000; 0; 226843872531204049000; 0; 0; 0; -17283342669044118100; 0; 0;
  0; 0; 0; 0; 0; 0; 0; 0; 0; 0; -202539171902860758; 0;
  14177742033200253100; 0; -113421936265602025000; 0; 226843872531204049000; 0; -129625070017830885000; 0; 17283342669044118100; 0; 0; 0;
  0; -3038087578542911380; 0; 0; 0; 0; -3038087578542911380; 0; 56710968132801012400; 0; 0; 0;
  0; 0; 0; 18228525471257468300; 0; 0; 0; -204159485278083644000; 0; 0; 0; 0;
  0; 0; 0; 0; 42533226099600759300; 0; -340265808796806074000; 0; 204159485278083644000; 0; 194437605026746328000; 0;
  0; 0; 0; 0; 0; 0; 0; 0; 0; 33418963363972025100; 0; -453687745062408099000;
  0; 1020797426390418220000; 0; -388875210053492656000; 0; -43208356672610295100; 0; 0; 0; 0; 0; 0;
  0; 0; 0; 0; 0; 0; 9114262735628734130; 0; -170132904398403037000; 0; 612478455834250933000; 0;
  -583312815080238984000; 0; 129625070017830885000; 0; 0; 0; 0; 0; 0; 0; 0; 0;
  0; 0; 0; 0; 0; 0; 0; 0; 2353292519203262670; 0; 0; 0;
  0; 2353292519203262670; 0; -43928127025127569900; 0; 0; 0; 0; 0; 0; -14119755115219576000; 0;
  0; 0; 158141257290459252000; 0; 0; 0; 0; 0; 0; 0; 0; -32946095268845677400;
  0; 263568762150765419000; 0; -158141257290459252000; 0; -150610721229008811000; 0; 0; 0; 0; 0; 0;
  0; 0; 0; 0; -25886217711235889400; 0; 351425016201020559000; 0; -790706286452296258000; 0; 301221442458017622000; 0;
  33469049162001958000; 0; 0; 0; 0; 0; 0; 0; 0; 0; 0; 0;
  0; -7059877557609788020; 0; 131784381075382710000; 0; -474423771871377755000; 0; 451832163687026433000; 0; -100407147486005874000; 0; 0;
  0; 0; 0; 0; 0; 0; 0; 0; 0; 0; 0; 0;
  0; 261476946578140297; 0; 0; -522953893156280594; 0; -16734524581000979000; 0; 0; 0; 0; -4445108091828385050;
  0; 50203573743002937000; 0; 117141672067006853000; 0; 0; 0; 0; 0; 0; -7321354504187928320; 0;
  234283344134013706000; 0; -468566688268027412000; 0; -187426675307210965000; 0; 0; 0; 0; 0; 0; 0;
  0; -4445108091828385050; 0; 234283344134013706000; 0; -1171416720670068530000; 0; 937133376536054825000; 0; 66938098324003916000; 0; 0;
  0; 0; 0; 0; 0; 0; 0; 0; -522953893156280594; 0; 50203573743002937000; 0;
  -468566688268027412000; 0; 937133376536054825000; 0; -401628589944023496000; 0; 0; 0; 0; 0; 0; 0;
  0; 0; 0; 0; 0; 0; 0; 261476946578140297; 0; -16734524581000979000; 0; 117141672067006853000;
  0; -187426675307210965000; 0; 66938098324003916000; 0; 0; 0; 0; -184892122049355627; 0; 0; 369784244098711255;
  0; 11833095811158760200; 0; 0; 0; 0; 3143166074839045670; 0; -35499287433476280500; 0; -82831670678111321100; 0;
  0; 0; 0; 0; 0; 5176979417381957570; 0; -165663341356222642000; 0; 331326682712445284000; 0; 132530673084978114000;
  0; 0; 0; 0; 0; 0; 0; 0; 3143166074839045670; 0; -165663341356222642000; 0;
  828316706781113211000; 0; -662653365424890569000; 0; -47332383244635040600; 0; 0; 0; 0; 0; 0; 0;
  0; 0; 0; 369784244098711255; 0; -35499287433476280500; 0; 331326682712445284000; 0; -662653365424890569000; 0; 283994299467810244000;
  0; 0; 0; 0; 0; 0; 0; 0; 0; 0; 0; 0;
  0; 0; -184892122049355627; 0; 11833095811158760200; 0; -82831670678111321100; 0; 132530673084978114000; 0; -47332383244635040600; 0;
  0; 0; 0; 0; 0; 3143166074839045670; 0; 0; 0; 0; -22002162523873319700; 0;
  -50290657197424730700; 0; 0; 0; 0; 0; 0; -69149653646459004700; 0; 402325257579397845000; 0; 140813840152789246000;
  0; 0; 0; 0; 0; 0; 0; 0; -44004325047746639300; 0; 704069200763946230000; 0;
  -1267324561375103210000; 0; -80465051515879569100; 0; 0; 0; 0; 0; 0; 0; 0; 0;
  0; 15715830374195228300; 0; 0; 0; -704069200763946230000; 0; 804650515158795691000; 0; 0; 0; 0;
  0; 0; 0; 0; 0; 0; 0; 0; 0; 0; 15715830374195228300; 0;
  -251453285987123653000; 0; 704069200763946230000; 0; -402325257579397845000; 0; 0; 0; 0; 0; 0; 0;
  0; 0; 0; 0; 0; 0; 0; 0; 0; 0; 0; 0;
  -2016934931700510830; 0; 0; 0; 0; 14118544521903575800; 0; 32270958907208173200; 0; 0; 0; 0;
  0; 0; 44372568497411238200; 0; -258167671257665386000; 0; -90358684940182885000; 0; 0; 0; 0; 0;
  0; 0; 0; 28237089043807151600; 0; -451793424700914425000; 0; 813228164461645965000; 0; 51633534251533077100; 0; 0;
  0; 0; 0; 0; 0; 0; 0; 0; -10084674658502554100; 0; 0; 0;
  451793424700914425000; 0; -516335342515330771000; 0; 0; 0; 0; 0; 0; 0; 0; 0;
  0; 0; 0; 0; 0; -10084674658502554100; 0; 161354794536040866000; 0; -451793424700914425000; 0; 258167671257665386000;
  0; 0; 0; 0; 0; 0; 0; 0; 0; 0; 0; 0;
  0; 0; 0; 0; 0; -288133561671501547; 0; 0; 3457602740058018560; 0; 15559212330261083500; 0;
  0; 0; 0; 7779606165130541760; 0; -202269760293394086000; 0; -82982465761392445400; 0; 0; 0; 0;
  0; 0; 0; 0; -217828972623655169000; 0; 1161754520659494240000; 0; 77450301377299615700; 0; 0; 0;
  0; 0; 0; 0; 0; -7779606165130541760; 0; 217828972623655169000; 0; 0; 0; -1161754520659494240000;
  0; 0; 0; 0; 0; 0; 0; 0; 0; 0; 0; 0;
  -3457602740058018560; 0; 202269760293394086000; 0; -1161754520659494240000; 0; 1161754520659494240000; 0; 0; 0; 0; 0;
  0; 0; 0; 0; 0; 0; 0; 0; 0; 0; 0; 288133561671501547;
  0; -15559212330261083500; 0; 82982465761392445400; 0; -77450301377299615700; 0; 0; 0; 0; 0; 0;
  166353989393607054; 0; 0; -1996247872723284650; 0; -8983115427254780940; 0; 0; 0; 0; -4491557713627390470; 0;
  116780500554312152000; 0; 47909948945358831700; 0; 0; 0; 0; 0; 0; 0; 0; 125763615981566933000;
  0; -670739285235023644000; 0; -44715952349001576200; 0; 0; 0; 0; 0; 0; 0; 0;
  4491557713627390470; 0; -125763615981566933000; 0; 0; 0; 670739285235023644000; 0; 0; 0; 0; 0;
  0; 0; 0; 0; 0; 0; 0; 1996247872723284650; 0; -116780500554312152000; 0; 670739285235023644000;
  0; -670739285235023644000; 0; 0; 0; 0; 0; 0; 0; 0; 0; 0;
  0; 0; 0; 0; 0; 0; -166353989393607054; 0; 8983115427254780940; 0; -47909948945358831700; 0;
  44715952349001576200; 0; 0; 0; 0; 0; 0; 0; 0; -3160725798478534030; 0; 0;
  0; 0; 60053790171092146700; 0; 37928709581742408400; 0; 0; 0; 0; 0; 0; 18964354790871204200;
  0; -758574191634848168000; 0; -60685935330787853500; 0; 0; 0; 0; 0; 0; 0; 0;
  -132750483536098429000; 0; 531001934144393718000; 0; 1274404641946544920000; 0; 0; 0; 0; 0; 0; 0;
  0; 0; 0; 0; 0; -66375241768049214700; 0; 1062003868288787440000; 0; -2124007736577574870000; 0; 0;
  0; 0; 0; 0; 0; 0; 0; 0; 0; 0; 0; 0;
  0; 0; 22125080589349738200; 0; -265500967072196859000; 0; 424801547315514974000; 0; 0; 0; 0; 0;
  0; 0; 0; 0; 0; 0; 0; 0; 0; 0; 0; 0;
  0; 0; 0; 0; 1621418123058019600; 0; 0; 0; 0; -30806944338102372400; 0; -19457017476696235200;
  0; 0; 0; 0; 0; 0; -9728508738348117610; 0; 389140349533924704000; 0; 31131227962713976300; 0;
  0; 0; 0; 0; 0; 0; 0; 68099561168436823300; 0; -272398244673747293000; 0; -653755787216993503000;
  0; 0; 0; 0; 0; 0; 0; 0; 0; 0; 0; 0;
  34049780584218411600; 0; -544796489347494586000; 0; 1089592978694989170000; 0; 0; 0; 0; 0; 0; 0;
  0; 0; 0; 0].
Definition g_trans_cart2jR_dec_29 : list Z := [
  0; 0; 0; 0; 0; -11349926861406137200; 0; 136199122336873647000; 0; -217918595738997834000; 0; 0;
  0; 0; 0; 0; 0; 0; 0; 0; 0; 0; 0; 0;
  0; 0; 0; 0; 0; 324283624611603920; 0; 0; -8431374239901701930; 0; -12971344984464156800; 0;
  0; 0; 0; 4864254369174058800; 0; 350226314580532234000; 0; 38914034953392470400; 0; 0; 0; 0;
  0; 0; 27239824467374729300; 0; -544796489347494586000; 0; -1089592978694989170000; 0; 0; 0; 0; 0;
  0; 0; 0; 0; 0; 4864254369174058800; 0; -544796489347494586000; 0; 2723982446737472930000; 0; 0;
  0; 0; 0; 0; 0; 0; 0; 0; 0; 0; 0; 0;
  -8431374239901701930; 0; 350226314580532234000; 0; -1089592978694989170000; 0; 0; 0; 0; 0; 0; 0;
  0; 0; 0; 0; 0; 0; 0; 0; 0; 0; 0; 324283624611603920;
  0; -12971344984464156800; 0; 38914034953392470400; 0; 0; 0; 0; 0; 0; 0; 0;
  -145024045724314041; 0; 0; 3770625188832165060; 0; 5800961828972561620; 0; 0; 0; 0; -2175360685864710610; 0;
  -156625969382259164000; 0; -17402885486917684900; 0; 0; 0; 0; 0; 0; -12182019840842379400; 0; 243640396816847588000;
  0; 487280793633695176000; 0; 0; 0; 0; 0; 0; 0; 0; 0; 0;
  -2175360685864710610; 0; 243640396816847588000; 0; -1218201984084237940000; 0; 0; 0; 0; 0; 0; 0;
  0; 0; 0; 0; 0; 0; 0; 3770625188832165060; 0; -156625969382259164000; 0; 487280793633695176000;
  0; 0; 0; 0; 0; 0; 0; 0; 0; 0; 0; 0;
  0; 0; 0; 0; 0; 0; -145024045724314041; 0; 5800961828972561620; 0; -17402885486917684900; 0;
  0; 0; 0; 0; 0; 0; 0; 0; 0; 3045504960210594850; 0; 0;
  0; 0; -106592673607370820000; 0; -20303366401403965700; 0; 0; 0; 0; 0; 0; 274095446418953537000;
  0; 730921190450542765000; 0; 0; 0; 0; 0; 0; 0; 0; 0; 0;
  127911208328844984000; 0; -2558224166576899680000; 0; 0; 0; 0; 0; 0; 0; 0; 0;
  0; 0; 0; 0; 0; -228412872015794614000; 0; 1705482777717933120000; 0; 0; 0; 0;
  0; 0; 0; 0; 0; 0; 0; 0; 0; 0; 0; 0;
  0; 0; 27409544641895353700; 0; -182730297612635691000; 0; 0; 0; 0; 0; 0; 0;
  0; 0; 0; 0; 0; 0; 0; 0; 0; 0; 0; 0;
  0; 0; 0; 0; -1151092677332985020; 0; 0; 0; 0; 40288243706654475700; 0; 7673951182219900130;
  0; 0; 0; 0; 0; 0; -103598340959968652000; 0; -276262242559916405000; 0; 0; 0;
  0; 0; 0; 0; 0; 0; 0; -48345892447985370800; 0; 966917848959707416000; 0; 0;
  0; 0; 0; 0; 0; 0; 0; 0; 0; 0; 0; 0;
  86331950799973876400; 0; -644611899306471611000; 0; 0; 0; 0; 0; 0; 0; 0; 0;
  0; 0; 0; 0; 0; 0; 0; 0; 0; -10359834095996865200; 0; 69065560639979101100;
  0; 0; 0; 0; 0; 0; 0; 0; 0; 0; 0; 0;
  0; 0; 0; 0; 0; 0; 0; 0; 0; -383697559110995006; 0; 0;
  16882692600883780300; 0; 8441346300441890140; 0; 0; 0; 0; -63310097253314176000; 0; -379860583519885056000; 0; 0;
  0; 0; 0; 0; 0; 0; 0; 0; 1772682723092796930000; 0; 0; 0;
  0; 0; 0; 0; 0; 0; 0; 0; 0; 63310097253314176000; 0; -1772682723092796930000;
  0; 0; 0; 0; 0; 0; 0; 0; 0; 0; 0; 0;
  0; 0; 0; 0; -16882692600883780300; 0; 379860583519885056000; 0; 0; 0; 0; 0;
  0; 0; 0; 0; 0; 0; 0; 0; 0; 0; 0; 0;
  0; 0; 0; 383697559110995006; 0; -8441346300441890140; 0; 0; 0; 0; 0; 0;
  0; 0; 0; 0; 115689166958762041; 0; 0; -5090323346185529820; 0; -2545161673092764910; 0; 0;
  0; 0; 19088712548195736800; 0; 114532275289174421000; 0; 0; 0; 0; 0; 0; 0;
  0; 0; 0; -534483951349480631000; 0; 0; 0; 0; 0; 0; 0; 0;
  0; 0; 0; 0; -19088712548195736800; 0; 534483951349480631000; 0; 0; 0; 0; 0;
  0; 0; 0; 0; 0; 0; 0; 0; 0; 0; 0; 5090323346185529820;
  0; -114532275289174421000; 0; 0; 0; 0; 0; 0; 0; 0; 0; 0;
  0; 0; 0; 0; 0; 0; 0; 0; 0; 0; -115689166958762041; 0;
  2545161673092764910; 0; 0; 0; 0; 0; 0; 0; 0; 0; 0; 0;
  0; -2660850840051526950; 0; 0; 0; 0; 146346796202833982000; 0; 0; 0; 0; 0;
  0; 0; 0; -878080777217003893000; 0; 0; 0; 0; 0; 0; 0; 0;
  0; 0; 0; 0; 1229313088103805450000; 0; 0; 0; 0; 0; 0; 0;
  0; 0; 0; 0; 0; 0; 0; 0; 0; -439040388608501947000; 0; 0;
  0; 0; 0; 0; 0; 0; 0; 0; 0; 0; 0; 0;
  0; 0; 0; 0; 0; 0; 29269359240566796400; 0; 0; 0; 0; 0;
  0; 0; 0; 0; 0; 0; 0; 0; 0; 0; 0; 0;
  0; 0; 0; 0; 0; 0; 0; 0; 554825753806619302; 0; 0; 0;
  0; -30515416459364061600; 0; 0; 0; 0; 0; 0; 0; 0; 183092498756184370000; 0;
  0; 0; 0; 0; 0; 0; 0; 0; 0; 0; 0; -256329498258658117000;
  0; 0; 0; 0; 0; 0; 0; 0; 0; 0; 0; 0;
  0; 0; 0; 0; 91546249378092184800; 0; 0; 0; 0; 0; 0; 0;
  0; 0; 0; 0; 0; 0; 0; 0; 0; 0; 0; 0;
  0; -6103083291872812320; 0; 0; 0; 0; 0; 0; 0; 0; 0; 0;
  0; 0; 0; 0; 0; 0; 0; 0; 0; 0; 0; 0;
  0; 554825753806619302; 0; 0; -36618499751236873900; 0; 0; 0; 0; 0; 0; 274638748134276554000;
  0; 0; 0; 0; 0; 0; 0; 0; 0; 0; -512658996517316235000; 0;
  0; 0; 0; 0; 0; 0; 0; 0; 0; 0; 0; 0;
  0; 274638748134276554000; 0; 0; 0; 0; 0; 0; 0; 0; 0; 0;
  0; 0; 0; 0; 0; 0; 0; 0; -36618499751236873900; 0; 0; 0;
  0; 0; 0; 0; 0; 0; 0; 0; 0; 0; 0; 0;
  0; 0; 0; 0; 0; 0; 0; 554825753806619302; 0; 0; 0; 0;
  0; 0; 0; 0; 0; 0; 0; 0; 0; 0; 0; 0;
  0; 0; 0; 0; 0; 0; 0; 0; 0; 0; 0; 0;
  0; 0; 0; 0; 0; 0; 0; 0; 0; 0; 0; 0;
  0; 0; 0; 0; 0; 0; 0; 0; 0; 0; 0; 0;
  0; 0; 0; 0; 0; 0; 0; 0; 0; 0; 0; 0;
  0; 0; 0; 0; 0; 0; 0; 0; 0; 0; 0; 0;
  0; 0; 0; 0; 0; 0; 0; 0; 0; 0; 0; 0;
  0; 0; 0; 0; 0; 0; 0; 0; 0; 0; 0; 0;
  0; 0; 0; 566266663742191171; 0; 0; -37373599806984617300; 0; 0; 0; 0; 0;
  0; 280301998552384630000; 0; 0; 0; 0; 0; 0; 0; 0; 0; 0;
  -523230397297784642000; 0; 0; 0; 0; 0; 0; 0; 0; 0; 0; 0;
  0; 0; 0; 280301998552384630000; 0; 0; 0; 0; 0; 0; 0; 0;
  0; 0; 0; 0; 0; 0; 0; 0; 0; 0; -37373599806984617300; 0;
  0; 0; 0; 0].
Definition g_trans_cart2jR_dec_30 : list Z := [
  0; 0; 0; 0; 0; 0; 0; 0; 0; 0; 0; 0;
  0; 0; 0; 0; 0; 566266663742191171; 0; 0; 0; 0; 0; 0;
  0; 0; 0; 0; 0; 0; 113253332748438234; 0; 0; -7474719961396923460; 0; 0;
  0; 0; 0; 0; 56060399710476925900; 0; 0; 0; 0; 0; 0; 0;
  0; 0; 0; -104646079459556928000; 0; 0; 0; 0; 0; 0; 0; 0;
  0; 0; 0; 0; 0; 0; 56060399710476925900; 0; 0; 0; 0; 0;
  0; 0; 0; 0; 0; 0; 0; 0; 0; 0; 0; 0;
  0; -7474719961396923460; 0; 0; 0; 0; 0; 0; 0; 0; 0; 0;
  0; 0; 0; 0; 0; 0; 0; 0; 0; 0; 0; 0;
  113253332748438234; 0; 0; 0; 0; 0; 0; 0; 0; 0; 0; 0;
  0; 0; 0; 2718079985962517620; 0; 0; 0; 0; -149494399227938469000; 0; 0; 0;
  0; 0; 0; 0; 0; 896966395367630815000; 0; 0; 0; 0; 0; 0;
  0; 0; 0; 0; 0; 0; -1255752953514683140000; 0; 0; 0; 0; 0;
  0; 0; 0; 0; 0; 0; 0; 0; 0; 0; 0; 448483197683815407000;
  0; 0; 0; 0; 0; 0; 0; 0; 0; 0; 0; 0;
  0; 0; 0; 0; 0; 0; 0; 0; -29898879845587693800; 0; 0; 0;
  0; 0; 0; 0; 0; 0; 0; 0; 0; 0; 0; 0;
  0; 0; 0; 0; 0; 0; 0; 0; 0; 0; 784642105787196884; 0;
  0; 0; 0; -43155315818295828600; 0; 0; 0; 0; 0; 0; 0; 0;
  258931894909774972000; 0; 0; 0; 0; 0; 0; 0; 0; 0; 0; 0;
  0; -362504652873684960000; 0; 0; 0; 0; 0; 0; 0; 0; 0; 0;
  0; 0; 0; 0; 0; 0; 129465947454887486000; 0; 0; 0; 0; 0;
  0; 0; 0; 0; 0; 0; 0; 0; 0; 0; 0; 0;
  0; 0; 0; -8631063163659165720; 0; 0; 0; 0; 0; 0; 0; 0;
  0; 0; 0; 0; 0; 0; 0; 0; 0; 0; 0; 0;
  0; 0; 0; -392321052893598442; 0; 0; 17262126327318331400; 0; 8631063163659165720; 0; 0; 0;
  0; -64732973727443742900; 0; -388397842364662457000; 0; 0; 0; 0; 0; 0; 0; 0;
  0; 0; 1812523264368424800000; 0; 0; 0; 0; 0; 0; 0; 0; 0;
  0; 0; 0; 64732973727443742900; 0; -1812523264368424800000; 0; 0; 0; 0; 0; 0;
  0; 0; 0; 0; 0; 0; 0; 0; 0; 0; -17262126327318331400; 0;
  388397842364662457000; 0; 0; 0; 0; 0; 0; 0; 0; 0; 0; 0;
  0; 0; 0; 0; 0; 0; 0; 0; 0; 392321052893598442; 0; -8631063163659165720;
  0; 0; 0; 0; 0; 0; 0; 0; 0; 0; -141689713908309089; 0;
  0; 6234347411965599940; 0; 3117173705982799970; 0; 0; 0; 0; -23378802794870999800; 0; -140272816769225999000; 0;
  0; 0; 0; 0; 0; 0; 0; 0; 0; 654606478256387993000; 0; 0;
  0; 0; 0; 0; 0; 0; 0; 0; 0; 0; 23378802794870999800; 0;
  -654606478256387993000; 0; 0; 0; 0; 0; 0; 0; 0; 0; 0; 0;
  0; 0; 0; 0; 0; -6234347411965599940; 0; 140272816769225999000; 0; 0; 0; 0;
  0; 0; 0; 0; 0; 0; 0; 0; 0; 0; 0; 0;
  0; 0; 0; 0; 141689713908309089; 0; -3117173705982799970; 0; 0; 0; 0; 0;
  0; 0; 0; 0; 0; 0; 0; -3117173705982799970; 0; 0; 0; 0;
  109101079709397999000; 0; 20781158039885333100; 0; 0; 0; 0; 0; 0; -280545633538451997000; 0; -748121689435871992000;
  0; 0; 0; 0; 0; 0; 0; 0; 0; 0; -130921295651277599000; 0;
  2618425913025551970000; 0; 0; 0; 0; 0; 0; 0; 0; 0; 0; 0;
  0; 0; 0; 233788027948709998000; 0; -1745617275350367980000; 0; 0; 0; 0; 0; 0;
  0; 0; 0; 0; 0; 0; 0; 0; 0; 0; 0; 0;
  -28054563353845199700; 0; 187030422358967998000; 0; 0; 0; 0; 0; 0; 0; 0; 0;
  0; 0; 0; 0; 0; 0; 0; 0; 0; 0; 0; 0;
  0; 0; -1329167334240811860; 0; 0; 0; 0; 46520856698428415300; 0; 8861115561605412430; 0; 0;
  0; 0; 0; 0; -119625060081673068000; 0; -319000160217794847000; 0; 0; 0; 0; 0;
  0; 0; 0; 0; 0; -55825028038114098300; 0; 1116500560762281970000; 0; 0; 0; 0;
  0; 0; 0; 0; 0; 0; 0; 0; 0; 0; 99687550068060889800; 0;
  -744333707174854644000; 0; 0; 0; 0; 0; 0; 0; 0; 0; 0; 0;
  0; 0; 0; 0; 0; 0; 0; -11962506008167306800; 0; 79750040054448711900; 0; 0;
  0; 0; 0; 0; 0; 0; 0; 0; 0; 0; 0; 0;
  0; 0; 0; 0; 0; 0; 0; 332291833560202966; 0; 0; -8639587672565277120; 0;
  -13291673342408118600; 0; 0; 0; 0; 4984377503403044490; 0; 358875180245019203000; 0; 39875020027224355900; 0; 0;
  0; 0; 0; 0; 27912514019057049200; 0; -558250280381140983000; 0; -1116500560762281970000; 0; 0; 0;
  0; 0; 0; 0; 0; 0; 0; 4984377503403044490; 0; -558250280381140983000; 0; 2791251401905704920000;
  0; 0; 0; 0; 0; 0; 0; 0; 0; 0; 0; 0;
  0; 0; -8639587672565277120; 0; 358875180245019203000; 0; -1116500560762281970000; 0; 0; 0; 0; 0;
  0; 0; 0; 0; 0; 0; 0; 0; 0; 0; 0; 0;
  0; 332291833560202966; 0; -13291673342408118600; 0; 39875020027224355900; 0; 0; 0; 0; 0; 0;
  0; 0; 162141812305801960; 0; 0; -4215687119950850960; 0; -6485672492232078410; 0; 0; 0; 0;
  2432127184587029400; 0; 175113157290266117000; 0; 19457017476696235200; 0; 0; 0; 0; 0; 0; 13619912233687364700;
  0; -272398244673747293000; 0; -544796489347494586000; 0; 0; 0; 0; 0; 0; 0; 0;
  0; 0; 2432127184587029400; 0; -272398244673747293000; 0; 1361991223368736470000; 0; 0; 0; 0; 0;
  0; 0; 0; 0; 0; 0; 0; 0; 0; -4215687119950850960; 0; 175113157290266117000;
  0; -544796489347494586000; 0; 0; 0; 0; 0; 0; 0; 0; 0; 0;
  0; 0; 0; 0; 0; 0; 0; 0; 162141812305801960; 0; -6485672492232078410; 0;
  19457017476696235200; 0; 0; 0; 0; 0; 0; 0; 0; 0; 0; 3242836246116039200;
  0; 0; 0; 0; -61613888676204744900; 0; -38914034953392470400; 0; 0; 0; 0; 0;
  0; -19457017476696235200; 0; 778280699067849409000; 0; 62262455925427952700; 0; 0; 0; 0; 0; 0;
  0; 0; 136199122336873647000; 0; -544796489347494586000; 0; -1307511574433987010000; 0; 0; 0; 0; 0;
  0; 0; 0; 0; 0; 0; 0; 68099561168436823300; 0; -1089592978694989170000; 0; 2179185957389978340000;
  0; 0; 0; 0; 0; 0; 0; 0; 0; 0; 0; 0;
  0; 0; 0; 0; -22699853722812274400; 0; 272398244673747293000; 0; -435837191477995669000; 0; 0; 0;
  0; 0; 0; 0; 0; 0; 0; 0; 0; 0; 0; 0;
  0; 0; 0; 0; 0; 0; 1776174562293129290; 0; 0; 0; 0; -33747316683569456600;
  0; -21314094747517551500; 0; 0; 0; 0; 0; 0; -10657047373758775800; 0; 426281894950351031000; 0;
  34102551596028082400; 0; 0; 0; 0; 0; 0; 0; 0; 74599331616311430300; 0; -298397326465245721000;
  0; -716153583516589731000; 0; 0; 0; 0; 0; 0; 0; 0; 0; 0;
  0; 0; 37299665808155715200; 0; -596794652930491443000; 0; 1193589305860982890000; 0; 0; 0; 0; 0;
  0; 0; 0; 0].
Definition g_trans_cart2jR_dec_31 : list Z := [
  0; 0; 0; 0; 0; 0; 0; -12433221936051905100; 0; 149198663232622861000; 0; -238717861172196577000;
  0; 0; 0; 0; 0; 0; 0; 0; 0; 0; 0; 0;
  0; 0; 0; 0; 0; 0; 0; -296029093715521549; 0; 0; 3552349124586258590; 0;
  15985571060638163600; 0; 0; 0; 0; 7992785530319081820; 0; -207812423788296127000; 0; -85256378990070206100; 0; 0;
  0; 0; 0; 0; 0; 0; -223797994848934291000; 0; 1193589305860982890000; 0; 79572620390732192400; 0;
  0; 0; 0; 0; 0; 0; 0; -7992785530319081820; 0; 223797994848934291000; 0; 0;
  0; -1193589305860982890000; 0; 0; 0; 0; 0; 0; 0; 0; 0; 0;
  0; 0; -3552349124586258590; 0; 207812423788296127000; 0; -1193589305860982890000; 0; 1193589305860982890000; 0; 0; 0;
  0; 0; 0; 0; 0; 0; 0; 0; 0; 0; 0; 0;
  0; 296029093715521549; 0; -15985571060638163600; 0; 85256378990070206100; 0; -79572620390732192400; 0; 0; 0; 0;
  0; 0; -179682844900943126; 0; 0; 2156194138811317510; 0; 9702873624650928800; 0; 0; 0; 0;
  4851436812325464400; 0; -126137357120462074000; 0; -51748659331471620300; 0; 0; 0; 0; 0; 0; 0;
  0; -135840230745113003000; 0; 724481230640602684000; 0; 48298748709373512200; 0; 0; 0; 0; 0; 0;
  0; 0; -4851436812325464400; 0; 135840230745113003000; 0; 0; 0; -724481230640602684000; 0; 0; 0;
  0; 0; 0; 0; 0; 0; 0; 0; 0; -2156194138811317510; 0; 126137357120462074000;
  0; -724481230640602684000; 0; 724481230640602684000; 0; 0; 0; 0; 0; 0; 0; 0;
  0; 0; 0; 0; 0; 0; 0; 0; 179682844900943126; 0; -9702873624650928800; 0;
  51748659331471620300; 0; -48298748709373512200; 0; 0; 0; 0; 0; 0; 0; 0; -3234291208216976270;
  0; 0; 0; 0; 22640038457518833900; 0; 51748659331471620300; 0; 0; 0; 0; 0;
  0; 71154406580773477900; 0; -413989274651772962000; 0; -144896246128120537000; 0; 0; 0; 0; 0; 0;
  0; 0; 45280076915037667700; 0; -724481230640602684000; 0; 1304066215153084830000; 0; 82797854930354592400; 0; 0; 0;
  0; 0; 0; 0; 0; 0; 0; -16171456041084881300; 0; 0; 0; 724481230640602684000;
  0; -827978549303545924000; 0; 0; 0; 0; 0; 0; 0; 0; 0; 0;
  0; 0; 0; 0; -16171456041084881300; 0; 258743296657358101000; 0; -724481230640602684000; 0; 413989274651772962000; 0;
  0; 0; 0; 0; 0; 0; 0; 0; 0; 0; 0; 0;
  0; 0; 0; 0; 0; 0; -2156194138811317510; 0; 0; 0; 0; 15093358971679222600;
  0; 34499106220981080200; 0; 0; 0; 0; 0; 0; 47436271053848985200; 0; -275992849767848641000; 0;
  -96597497418747024500; 0; 0; 0; 0; 0; 0; 0; 0; 30186717943358445200; 0; -482987487093735122000;
  0; 869377476768723220000; 0; 55198569953569728300; 0; 0; 0; 0; 0; 0; 0; 0;
  0; 0; -10780970694056587600; 0; 0; 0; 482987487093735122000; 0; -551985699535697283000; 0; 0; 0;
  0; 0; 0; 0; 0; 0; 0; 0; 0; 0; 0; -10780970694056587600;
  0; 172495531104905401000; 0; -482987487093735122000; 0; 275992849767848641000; 0; 0; 0; 0; 0; 0;
  0; 0; 0; 0; 0; 0; 0; 0; 0; 0; 0; 269524267351414689;
  0; 0; -539048534702829378; 0; -17249553110490540100; 0; 0; 0; 0; -4581912544974049710; 0; 51748659331471620300;
  0; 120746871773433781000; 0; 0; 0; 0; 0; 0; -7546679485839611290; 0; 241493743546867561000; 0;
  -482987487093735122000; 0; -193194994837494049000; 0; 0; 0; 0; 0; 0; 0; 0; -4581912544974049710;
  0; 241493743546867561000; 0; -1207468717734337810000; 0; 965974974187470245000; 0; 68998212441962160400; 0; 0; 0; 0;
  0; 0; 0; 0; 0; 0; -539048534702829378; 0; 51748659331471620300; 0; -482987487093735122000; 0;
  965974974187470245000; 0; -413989274651772962000; 0; 0; 0; 0; 0; 0; 0; 0; 0;
  0; 0; 0; 0; 0; 269524267351414689; 0; -17249553110490540100; 0; 120746871773433781000; 0; -193194994837494049000;
  0; 68998212441962160400; 0; 0; 0; 0; 196107709933605223; 0; 0; -392215419867210446; 0; -12550893435750734300;
  0; 0; 0; 0; -3333831068871288790; 0; 37652680307252202800; 0; 87856254050255139800; 0; 0; 0;
  0; 0; 0; -5491015878140946240; 0; 175712508100510280000; 0; -351425016201020559000; 0; -140570006480408224000; 0; 0;
  0; 0; 0; 0; 0; 0; -3333831068871288790; 0; 175712508100510280000; 0; -878562540502551398000; 0;
  702850032402041119000; 0; 50203573743002937000; 0; 0; 0; 0; 0; 0; 0; 0; 0;
  0; -392215419867210446; 0; 37652680307252202800; 0; -351425016201020559000; 0; 702850032402041119000; 0; -301221442458017622000; 0; 0;
  0; 0; 0; 0; 0; 0; 0; 0; 0; 0; 0; 0;
  196107709933605223; 0; -12550893435750734300; 0; 87856254050255139800; 0; -140570006480408224000; 0; 50203573743002937000; 0; 0; 0;
  0; 0; 0; 3137723358937683560; 0; 0; 0; 0; 3137723358937683560; 0; -58570836033503426500; 0;
  0; 0; 0; 0; 0; -18826340153626101400; 0; 0; 0; 210855009720612336000; 0; 0;
  0; 0; 0; 0; 0; 0; -43928127025127569900; 0; 351425016201020559000; 0; -210855009720612336000; 0;
  -200814294972011748000; 0; 0; 0; 0; 0; 0; 0; 0; 0; 0; -34514956948314519200;
  0; 468566688268027412000; 0; -1054275048603061680000; 0; 401628589944023496000; 0; 44625398882669277400; 0; 0; 0; 0;
  0; 0; 0; 0; 0; 0; 0; 0; -9413170076813050690; 0; 175712508100510280000; 0;
  -632565029161837007000; 0; 602442884916035244000; 0; -133876196648007832000; 0; 0; 0; 0; 0; 0; 0;
  0; 0; 0; 0; 0; 0; 0; 0; 0; 0; 2480588120439281460; 0;
  0; 0; 0; 2480588120439281460; 0; -46304311581533253900; 0; 0; 0; 0; 0; 0;
  -14883528722635688700; 0; 0; 0; 166695521693519714000; 0; 0; 0; 0; 0; 0; 0;
  0; -34728233686149940400; 0; 277825869489199523000; 0; -166695521693519714000; 0; -158757639708114013000; 0; 0; 0; 0;
  0; 0; 0; 0; 0; 0; -27286469324832096000; 0; 370434492652266031000; 0; -833477608467598570000; 0;
  317515279416228027000; 0; 35279475490692003000; 0; 0; 0; 0; 0; 0; 0; 0; 0;
  0; 0; 0; -7441764361317844370; 0; 138912934744599762000; 0; -500086565080559142000; 0; 476272919124342040000; 0; -105838426472076009000;
  0; 0; 0; 0; 0; 0; 0; 0; 0; 0; 0; 0;
  0; 0; 0; -248058812043928146; 0; 0; -992235248175712583; 0; 17364116843074970200; 0; 0; 0;
  0; -1240294060219640730; 0; 52092350529224910600; 0; -138912934744599762000; 0; 0; 0; 0; 0; 0;
  0; 0; 34728233686149940400; 0; -277825869489199523000; 0; 277825869489199523000; 0; 0; 0; 0; 0;
  0; 0; 0; 1240294060219640730; 0; -34728233686149940400; 0; 0; 0; 277825869489199523000; 0; -158757639708114013000;
  0; 0; 0; 0; 0; 0; 0; 0; 0; 0; 992235248175712583; 0;
  -52092350529224910600; 0; 277825869489199523000; 0; -277825869489199523000; 0; 0; 0; 21167685294415201800; 0; 0; 0;
  0; 0; 0; 0; 0; 0; 0; 0; 0; 248058812043928146; 0; -17364116843074970200;
  0; 138912934744599762000; 0; -277825869489199523000; 0; 158757639708114013000; 0; -21167685294415201800; 0; 0; -212424875592775713; 0;
  0; -849699502371102853; 0; 14869741291494299900; 0; 0; 0; 0; -1062124377963878570; 0; 44609223874482899800; 0;
  -118957930331954399000; 0; 0; 0; 0; 0; 0; 0; 0; 29739482582988599900; 0; -237915860663908799000;
  0; 237915860663908799000; 0; 0; 0; 0; 0; 0; 0; 0; 1062124377963878570; 0;
  -29739482582988599900; 0; 0; 0; 237915860663908799000; 0; -135951920379376457000; 0; 0; 0; 0; 0;
  0; 0; 0; 0; 0; 849699502371102853; 0; -44609223874482899800; 0; 237915860663908799000; 0; -237915860663908799000;
  0; 0; 0; 18126922717250194200; 0; 0; 0; 0; 0; 0; 0; 0;
  0; 0; 0; 0; 212424875592775713; 0; -14869741291494299900; 0; 118957930331954399000; 0; -237915860663908799000; 0;
  135951920379376457000; 0; -18126922717250194200; 0; 0; 0; 0; -2973948258298859990; 0; 0; 0; 0;
  -14869741291494299900; 0; 59478965165977199700; 0; 0; 0; 0; 0; 0; -29739482582988599900; 0; 237915860663908799000;
  0; -237915860663908799000; 0; 0; 0; 0; 0; 0; 0; 0; -29739482582988599900; 0;
  356873790995863198000; 0; -713747581991726397000; 0; 271903840758752913000; 0; 0; 0; 0; 0; 0; 0;
  0; 0; 0; -14869741291494299900; 0; 237915860663908799000; 0; -713747581991726397000; 0; 543807681517505826000; 0; -90634613586250971000;
  0; 0; 0; 0].
Definition g_trans_cart2jR_dec_32 : list Z := [
  0; 0; 0; 0; 0; 0; 0; 0; -2973948258298859990; 0; 59478965165977199700; 0;
  -237915860663908799000; 0; 271903840758752913000; 0; -90634613586250971000; 0; 6591608260818252440; 0; 0; 0; 0; 0;
  0; 0; 0; 0; 0; 0; 0; 0; 0; 0; -2753341073216656200; 0;
  0; 0; 0; -13766705366083281000; 0; 55066821464333124000; 0; 0; 0; 0; 0; 0;
  -27533410732166562000; 0; 220267285857332496000; 0; -220267285857332496000; 0; 0; 0; 0; 0; 0; 0;
  0; -27533410732166562000; 0; 330400928785998744000; 0; -660801857571997488000; 0; 251734040979808567000; 0; 0; 0; 0;
  0; 0; 0; 0; 0; 0; -13766705366083281000; 0; 220267285857332496000; 0; -660801857571997488000; 0;
  503468081959617133000; 0; -83911346993269522200; 0; 0; 0; 0; 0; 0; 0; 0; 0;
  0; 0; 0; -2753341073216656200; 0; 55066821464333124000; 0; -220267285857332496000; 0; 251734040979808567000; 0; -83911346993269522200;
  0; 6102643417692328890; 0; 0; 0; 0; 0; 0; 0; 0; 0; 0;
  0; 0; 0; 229445089434721350; 0; 0; 1376670536608328100; 0; -16520046439299937200; 0; 0; 0;
  0; 3441676341520820250; 0; -82600232196499685900; 0; 137667053660832810000; 0; 0; 0; 0; 0; 0;
  4588901788694427000; 0; -165200464392999372000; 0; 550668214643331240000; 0; -293689714476443328000; 0; 0; 0; 0; 0;
  0; 0; 0; 3441676341520820250; 0; -165200464392999372000; 0; 826002321964996859000; 0; -881069143429329983000; 0; 188800530734856425000;
  0; 0; 0; 0; 0; 0; 0; 0; 0; 0; 1376670536608328100; 0;
  -82600232196499685900; 0; 550668214643331240000; 0; -881069143429329983000; 0; 377601061469712850000; 0; -33564538797307808900; 0; 0; 0;
  0; 0; 0; 0; 0; 0; 0; 0; 0; 229445089434721350; 0; -16520046439299937200;
  0; 137667053660832810000; 0; -293689714476443328000; 0; 188800530734856425000; 0; -33564538797307808900; 0; 1017107236282054810; 229445089434721350; 0;
  0; 1376670536608328100; 0; -16520046439299937200; 0; 0; 0; 0; 3441676341520820250; 0; -82600232196499685900; 0;
  137667053660832810000; 0; 0; 0; 0; 0; 0; 4588901788694427000; 0; -165200464392999372000; 0; 550668214643331240000;
  0; -293689714476443328000; 0; 0; 0; 0; 0; 0; 0; 0; 3441676341520820250; 0;
  -165200464392999372000; 0; 826002321964996859000; 0; -881069143429329983000; 0; 188800530734856425000; 0; 0; 0; 0; 0;
  0; 0; 0; 0; 0; 1376670536608328100; 0; -82600232196499685900; 0; 550668214643331240000; 0; -881069143429329983000;
  0; 377601061469712850000; 0; -33564538797307808900; 0; 0; 0; 0; 0; 0; 0; 0;
  0; 0; 0; 0; 229445089434721350; 0; -16520046439299937200; 0; 137667053660832810000; 0; -293689714476443328000; 0;
  188800530734856425000; 0; -33564538797307808900; 0; 1017107236282054810; 0; 0; 2753341073216656200; 0; 0; 0; 0;
  13766705366083281000; 0; -55066821464333124000; 0; 0; 0; 0; 0; 0; 27533410732166562000; 0; -220267285857332496000;
  0; 220267285857332496000; 0; 0; 0; 0; 0; 0; 0; 0; 27533410732166562000; 0;
  -330400928785998744000; 0; 660801857571997488000; 0; -251734040979808567000; 0; 0; 0; 0; 0; 0; 0;
  0; 0; 0; 13766705366083281000; 0; -220267285857332496000; 0; 660801857571997488000; 0; -503468081959617133000; 0; 83911346993269522200;
  0; 0; 0; 0; 0; 0; 0; 0; 0; 0; 0; 0;
  2753341073216656200; 0; -55066821464333124000; 0; 220267285857332496000; 0; -251734040979808567000; 0; 83911346993269522200; 0; -6102643417692328890; 0;
  0; 0; 0; 0; 0; 0; 0; 0; 0; 0; 0; 0;
  0; 0; 2973948258298859990; 0; 0; 0; 0; 14869741291494299900; 0; -59478965165977199700; 0; 0;
  0; 0; 0; 0; 29739482582988599900; 0; -237915860663908799000; 0; 237915860663908799000; 0; 0; 0;
  0; 0; 0; 0; 0; 29739482582988599900; 0; -356873790995863198000; 0; 713747581991726397000; 0; -271903840758752913000;
  0; 0; 0; 0; 0; 0; 0; 0; 0; 0; 14869741291494299900; 0;
  -237915860663908799000; 0; 713747581991726397000; 0; -543807681517505826000; 0; 90634613586250971000; 0; 0; 0; 0; 0;
  0; 0; 0; 0; 0; 0; 0; 2973948258298859990; 0; -59478965165977199700; 0; 237915860663908799000;
  0; -271903840758752913000; 0; 90634613586250971000; 0; -6591608260818252440; 0; 0; 0; 0; 0; 0;
  0; 0; 0; 0; 0; 0; 0; -212424875592775713; 0; 0; -849699502371102853; 0;
  14869741291494299900; 0; 0; 0; 0; -1062124377963878570; 0; 44609223874482899800; 0; -118957930331954399000; 0; 0;
  0; 0; 0; 0; 0; 0; 29739482582988599900; 0; -237915860663908799000; 0; 237915860663908799000; 0;
  0; 0; 0; 0; 0; 0; 0; 1062124377963878570; 0; -29739482582988599900; 0; 0;
  0; 237915860663908799000; 0; -135951920379376457000; 0; 0; 0; 0; 0; 0; 0; 0;
  0; 0; 849699502371102853; 0; -44609223874482899800; 0; 237915860663908799000; 0; -237915860663908799000; 0; 0; 0;
  18126922717250194200; 0; 0; 0; 0; 0; 0; 0; 0; 0; 0; 0;
  0; 212424875592775713; 0; -14869741291494299900; 0; 118957930331954399000; 0; -237915860663908799000; 0; 135951920379376457000; 0; -18126922717250194200;
  0; 0; -248058812043928146; 0; 0; -992235248175712583; 0; 17364116843074970200; 0; 0; 0; 0;
  -1240294060219640730; 0; 52092350529224910600; 0; -138912934744599762000; 0; 0; 0; 0; 0; 0; 0;
  0; 34728233686149940400; 0; -277825869489199523000; 0; 277825869489199523000; 0; 0; 0; 0; 0; 0;
  0; 0; 1240294060219640730; 0; -34728233686149940400; 0; 0; 0; 277825869489199523000; 0; -158757639708114013000; 0;
  0; 0; 0; 0; 0; 0; 0; 0; 0; 992235248175712583; 0; -52092350529224910600;
  0; 277825869489199523000; 0; -277825869489199523000; 0; 0; 0; 21167685294415201800; 0; 0; 0; 0;
  0; 0; 0; 0; 0; 0; 0; 0; 248058812043928146; 0; -17364116843074970200; 0;
  138912934744599762000; 0; -277825869489199523000; 0; 158757639708114013000; 0; -21167685294415201800; 0; 0; 0; 0; -2480588120439281460;
  0; 0; 0; 0; -2480588120439281460; 0; 46304311581533253900; 0; 0; 0; 0; 0;
  0; 14883528722635688700; 0; 0; 0; -166695521693519714000; 0; 0; 0; 0; 0; 0;
  0; 0; 34728233686149940400; 0; -277825869489199523000; 0; 166695521693519714000; 0; 158757639708114013000; 0; 0; 0;
  0; 0; 0; 0; 0; 0; 0; 27286469324832096000; 0; -370434492652266031000; 0; 833477608467598570000;
  0; -317515279416228027000; 0; -35279475490692003000; 0; 0; 0; 0; 0; 0; 0; 0;
  0; 0; 0; 0; 7441764361317844370; 0; -138912934744599762000; 0; 500086565080559142000; 0; -476272919124342040000; 0;
  105838426472076009000; 0; 0; 0; 0; 0; 0; 0; 0; 0; 0; 0;
  0; 0; 0; 0; 0; 0; -3137723358937683560; 0; 0; 0; 0; -3137723358937683560;
  0; 58570836033503426500; 0; 0; 0; 0; 0; 0; 18826340153626101400; 0; 0; 0;
  -210855009720612336000; 0; 0; 0; 0; 0; 0; 0; 0; 43928127025127569900; 0; -351425016201020559000;
  0; 210855009720612336000; 0; 200814294972011748000; 0; 0; 0; 0; 0; 0; 0; 0;
  0; 0; 34514956948314519200; 0; -468566688268027412000; 0; 1054275048603061680000; 0; -401628589944023496000; 0; -44625398882669277400; 0;
  0; 0; 0; 0; 0; 0; 0; 0; 0; 0; 0; 9413170076813050690;
  0; -175712508100510280000; 0; 632565029161837007000; 0; -602442884916035244000; 0; 133876196648007832000; 0; 0; 0; 0;
  0; 0; 0; 0; 0; 0; 0; 0; 0; 0; 0; 196107709933605223;
  0; 0; -392215419867210446; 0; -12550893435750734300; 0; 0; 0; 0; -3333831068871288790; 0; 37652680307252202800;
  0; 87856254050255139800; 0; 0; 0; 0; 0; 0; -5491015878140946240; 0; 175712508100510280000; 0;
  -351425016201020559000; 0; -140570006480408224000; 0; 0; 0; 0; 0; 0; 0; 0; -3333831068871288790;
  0; 175712508100510280000; 0; -878562540502551398000; 0; 702850032402041119000; 0; 50203573743002937000; 0; 0; 0; 0;
  0; 0; 0; 0; 0; 0; -392215419867210446; 0; 37652680307252202800; 0; -351425016201020559000; 0;
  702850032402041119000; 0; -301221442458017622000; 0; 0; 0; 0; 0; 0; 0; 0; 0;
  0; 0; 0; 0; 0; 196107709933605223; 0; -12550893435750734300; 0; 87856254050255139800; 0; -140570006480408224000;
  0; 50203573743002937000; 0; 0; 0; 0; 269524267351414689; 0; 0; -539048534702829378; 0; -17249553110490540100;
  0; 0; 0; 0; -4581912544974049710; 0; 51748659331471620300; 0; 120746871773433781000; 0; 0; 0;
  0; 0; 0; -7546679485839611290; 0; 241493743546867561000; 0; -482987487093735122000; 0; -193194994837494049000; 0; 0;
  0; 0; 0; 0; 0; 0; -4581912544974049710; 0; 241493743546867561000; 0; -1207468717734337810000; 0;
  965974974187470245000; 0; 68998212441962160400; 0; 0; 0; 0; 0; 0; 0; 0; 0;
  0; -539048534702829378; 0; 51748659331471620300].
Definition g_trans_cart2jR_dec_33 : list Z := [
  0; -482987487093735122000; 0; 965974974187470245000; 0; -413989274651772962000; 0; 0; 0; 0; 0; 0;
  0; 0; 0; 0; 0; 0; 0; 0; 269524267351414689; 0; -17249553110490540100; 0;
  120746871773433781000; 0; -193194994837494049000; 0; 68998212441962160400; 0; 0; 0; 0; 0; 0; 2156194138811317510;
  0; 0; 0; 0; -15093358971679222600; 0; -34499106220981080200; 0; 0; 0; 0; 0;
  0; -47436271053848985200; 0; 275992849767848641000; 0; 96597497418747024500; 0; 0; 0; 0; 0; 0;
  0; 0; -30186717943358445200; 0; 482987487093735122000; 0; -869377476768723220000; 0; -55198569953569728300; 0; 0; 0;
  0; 0; 0; 0; 0; 0; 0; 10780970694056587600; 0; 0; 0; -482987487093735122000;
  0; 551985699535697283000; 0; 0; 0; 0; 0; 0; 0; 0; 0; 0;
  0; 0; 0; 0; 10780970694056587600; 0; -172495531104905401000; 0; 482987487093735122000; 0; -275992849767848641000; 0;
  0; 0; 0; 0; 0; 0; 0; 0; 0; 0; 0; 0;
  0; 0; 0; 0; 0; 0; 3234291208216976270; 0; 0; 0; 0; -22640038457518833900;
  0; -51748659331471620300; 0; 0; 0; 0; 0; 0; -71154406580773477900; 0; 413989274651772962000; 0;
  144896246128120537000; 0; 0; 0; 0; 0; 0; 0; 0; -45280076915037667700; 0; 724481230640602684000;
  0; -1304066215153084830000; 0; -82797854930354592400; 0; 0; 0; 0; 0; 0; 0; 0;
  0; 0; 16171456041084881300; 0; 0; 0; -724481230640602684000; 0; 827978549303545924000; 0; 0; 0;
  0; 0; 0; 0; 0; 0; 0; 0; 0; 0; 0; 16171456041084881300;
  0; -258743296657358101000; 0; 724481230640602684000; 0; -413989274651772962000; 0; 0; 0; 0; 0; 0;
  0; 0; 0; 0; 0; 0; 0; 0; 0; 0; 0; -179682844900943126;
  0; 0; 2156194138811317510; 0; 9702873624650928800; 0; 0; 0; 0; 4851436812325464400; 0; -126137357120462074000;
  0; -51748659331471620300; 0; 0; 0; 0; 0; 0; 0; 0; -135840230745113003000; 0;
  724481230640602684000; 0; 48298748709373512200; 0; 0; 0; 0; 0; 0; 0; 0; -4851436812325464400;
  0; 135840230745113003000; 0; 0; 0; -724481230640602684000; 0; 0; 0; 0; 0; 0;
  0; 0; 0; 0; 0; 0; -2156194138811317510; 0; 126137357120462074000; 0; -724481230640602684000; 0;
  724481230640602684000; 0; 0; 0; 0; 0; 0; 0; 0; 0; 0; 0;
  0; 0; 0; 0; 0; 179682844900943126; 0; -9702873624650928800; 0; 51748659331471620300; 0; -48298748709373512200;
  0; 0; 0; 0; 0; 0; -296029093715521549; 0; 0; 3552349124586258590; 0; 15985571060638163600;
  0; 0; 0; 0; 7992785530319081820; 0; -207812423788296127000; 0; -85256378990070206100; 0; 0; 0;
  0; 0; 0; 0; 0; -223797994848934291000; 0; 1193589305860982890000; 0; 79572620390732192400; 0; 0;
  0; 0; 0; 0; 0; 0; -7992785530319081820; 0; 223797994848934291000; 0; 0; 0;
  -1193589305860982890000; 0; 0; 0; 0; 0; 0; 0; 0; 0; 0; 0;
  0; -3552349124586258590; 0; 207812423788296127000; 0; -1193589305860982890000; 0; 1193589305860982890000; 0; 0; 0; 0;
  0; 0; 0; 0; 0; 0; 0; 0; 0; 0; 0; 0;
  296029093715521549; 0; -15985571060638163600; 0; 85256378990070206100; 0; -79572620390732192400; 0; 0; 0; 0; 0;
  0; 0; 0; -1776174562293129290; 0; 0; 0; 0; 33747316683569456600; 0; 21314094747517551500; 0;
  0; 0; 0; 0; 0; 10657047373758775800; 0; -426281894950351031000; 0; -34102551596028082400; 0; 0;
  0; 0; 0; 0; 0; 0; -74599331616311430300; 0; 298397326465245721000; 0; 716153583516589731000; 0;
  0; 0; 0; 0; 0; 0; 0; 0; 0; 0; 0; -37299665808155715200;
  0; 596794652930491443000; 0; -1193589305860982890000; 0; 0; 0; 0; 0; 0; 0; 0;
  0; 0; 0; 0; 0; 0; 0; 0; 12433221936051905100; 0; -149198663232622861000; 0;
  238717861172196577000; 0; 0; 0; 0; 0; 0; 0; 0; 0; 0; 0;
  0; 0; 0; 0; 0; 0; 0; 0; 0; 0; -3242836246116039200; 0;
  0; 0; 0; 61613888676204744900; 0; 38914034953392470400; 0; 0; 0; 0; 0; 0;
  19457017476696235200; 0; -778280699067849409000; 0; -62262455925427952700; 0; 0; 0; 0; 0; 0; 0;
  0; -136199122336873647000; 0; 544796489347494586000; 0; 1307511574433987010000; 0; 0; 0; 0; 0; 0;
  0; 0; 0; 0; 0; 0; -68099561168436823300; 0; 1089592978694989170000; 0; -2179185957389978340000; 0;
  0; 0; 0; 0; 0; 0; 0; 0; 0; 0; 0; 0;
  0; 0; 0; 22699853722812274400; 0; -272398244673747293000; 0; 435837191477995669000; 0; 0; 0; 0;
  0; 0; 0; 0; 0; 0; 0; 0; 0; 0; 0; 0;
  0; 0; 0; 162141812305801960; 0; 0; -4215687119950850960; 0; -6485672492232078410; 0; 0; 0;
  0; 2432127184587029400; 0; 175113157290266117000; 0; 19457017476696235200; 0; 0; 0; 0; 0; 0;
  13619912233687364700; 0; -272398244673747293000; 0; -544796489347494586000; 0; 0; 0; 0; 0; 0; 0;
  0; 0; 0; 2432127184587029400; 0; -272398244673747293000; 0; 1361991223368736470000; 0; 0; 0; 0;
  0; 0; 0; 0; 0; 0; 0; 0; 0; 0; -4215687119950850960; 0;
  175113157290266117000; 0; -544796489347494586000; 0; 0; 0; 0; 0; 0; 0; 0; 0;
  0; 0; 0; 0; 0; 0; 0; 0; 0; 162141812305801960; 0; -6485672492232078410;
  0; 19457017476696235200; 0; 0; 0; 0; 0; 0; 0; 0; 332291833560202966; 0;
  0; -8639587672565277120; 0; -13291673342408118600; 0; 0; 0; 0; 4984377503403044490; 0; 358875180245019203000; 0;
  39875020027224355900; 0; 0; 0; 0; 0; 0; 27912514019057049200; 0; -558250280381140983000; 0; -1116500560762281970000;
  0; 0; 0; 0; 0; 0; 0; 0; 0; 0; 4984377503403044490; 0;
  -558250280381140983000; 0; 2791251401905704920000; 0; 0; 0; 0; 0; 0; 0; 0; 0;
  0; 0; 0; 0; 0; -8639587672565277120; 0; 358875180245019203000; 0; -1116500560762281970000; 0; 0;
  0; 0; 0; 0; 0; 0; 0; 0; 0; 0; 0; 0;
  0; 0; 0; 0; 332291833560202966; 0; -13291673342408118600; 0; 39875020027224355900; 0; 0; 0;
  0; 0; 0; 0; 0; 0; 0; 1329167334240811860; 0; 0; 0; 0;
  -46520856698428415300; 0; -8861115561605412430; 0; 0; 0; 0; 0; 0; 119625060081673068000; 0; 319000160217794847000;
  0; 0; 0; 0; 0; 0; 0; 0; 0; 0; 55825028038114098300; 0;
  -1116500560762281970000; 0; 0; 0; 0; 0; 0; 0; 0; 0; 0; 0;
  0; 0; 0; -99687550068060889800; 0; 744333707174854644000; 0; 0; 0; 0; 0; 0;
  0; 0; 0; 0; 0; 0; 0; 0; 0; 0; 0; 0;
  11962506008167306800; 0; -79750040054448711900; 0; 0; 0; 0; 0; 0; 0; 0; 0;
  0; 0; 0; 0; 0; 0; 0; 0; 0; 0; 0; 0;
  0; 0; 3117173705982799970; 0; 0; 0; 0; -109101079709397999000; 0; -20781158039885333100; 0; 0;
  0; 0; 0; 0; 280545633538451997000; 0; 748121689435871992000; 0; 0; 0; 0; 0;
  0; 0; 0; 0; 0; 130921295651277599000; 0; -2618425913025551970000; 0; 0; 0; 0;
  0; 0; 0; 0; 0; 0; 0; 0; 0; 0; -233788027948709998000; 0;
  1745617275350367980000; 0; 0; 0; 0; 0; 0; 0; 0; 0; 0; 0;
  0; 0; 0; 0; 0; 0; 0; 28054563353845199700; 0; -187030422358967998000; 0; 0;
  0; 0; 0; 0; 0; 0; 0; 0; 0; 0; 0; 0;
  0; 0; 0; 0; 0; 0; 0; -141689713908309089; 0; 0; 6234347411965599940; 0;
  3117173705982799970; 0; 0; 0; 0; -23378802794870999800; 0; -140272816769225999000; 0; 0; 0; 0;
  0; 0; 0; 0; 0; 0; 654606478256387993000; 0; 0; 0; 0; 0;
  0; 0; 0; 0; 0; 0; 0; 23378802794870999800; 0; -654606478256387993000; 0; 0;
  0; 0; 0; 0; 0; 0; 0; 0; 0; 0; 0; 0;
  0; 0; -6234347411965599940; 0].
Definition g_trans_cart2jR_dec_34 : list Z := [
  140272816769225999000; 0; 0; 0; 0; 0; 0; 0; 0; 0; 0; 0;
  0; 0; 0; 0; 0; 0; 0; 0; 0; 141689713908309089; 0; -3117173705982799970;
  0; 0; 0; 0; 0; 0; 0; 0; 0; 0; -392321052893598442; 0;
  0; 17262126327318331400; 0; 8631063163659165720; 0; 0; 0; 0; -64732973727443742900; 0; -388397842364662457000; 0;
  0; 0; 0; 0; 0; 0; 0; 0; 0; 1812523264368424800000; 0; 0;
  0; 0; 0; 0; 0; 0; 0; 0; 0; 0; 64732973727443742900; 0;
  -1812523264368424800000; 0; 0; 0; 0; 0; 0; 0; 0; 0; 0; 0;
  0; 0; 0; 0; 0; -17262126327318331400; 0; 388397842364662457000; 0; 0; 0; 0;
  0; 0; 0; 0; 0; 0; 0; 0; 0; 0; 0; 0;
  0; 0; 0; 0; 392321052893598442; 0; -8631063163659165720; 0; 0; 0; 0; 0;
  0; 0; 0; 0; 0; 0; 0; -784642105787196884; 0; 0; 0; 0;
  43155315818295828600; 0; 0; 0; 0; 0; 0; 0; 0; -258931894909774972000; 0; 0;
  0; 0; 0; 0; 0; 0; 0; 0; 0; 0; 362504652873684960000; 0;
  0; 0; 0; 0; 0; 0; 0; 0; 0; 0; 0; 0;
  0; 0; 0; -129465947454887486000; 0; 0; 0; 0; 0; 0; 0; 0;
  0; 0; 0; 0; 0; 0; 0; 0; 0; 0; 0; 0;
  8631063163659165720; 0; 0; 0; 0; 0; 0; 0; 0; 0; 0; 0;
  0; 0; 0; 0; 0; 0; 0; 0; 0; 0; 0; 0;
  0; 0; -2718079985962517620; 0; 0; 0; 0; 149494399227938469000; 0; 0; 0; 0;
  0; 0; 0; 0; -896966395367630815000; 0; 0; 0; 0; 0; 0; 0;
  0; 0; 0; 0; 0; 1255752953514683140000; 0; 0; 0; 0; 0; 0;
  0; 0; 0; 0; 0; 0; 0; 0; 0; 0; -448483197683815407000; 0;
  0; 0; 0; 0; 0; 0; 0; 0; 0; 0; 0; 0;
  0; 0; 0; 0; 0; 0; 0; 29898879845587693800; 0; 0; 0; 0;
  0; 0; 0; 0; 0; 0; 0; 0; 0; 0; 0; 0;
  0; 0; 0; 0; 0; 0; 0; 113253332748438234; 0; 0; -7474719961396923460; 0;
  0; 0; 0; 0; 0; 56060399710476925900; 0; 0; 0; 0; 0; 0;
  0; 0; 0; 0; -104646079459556928000; 0; 0; 0; 0; 0; 0; 0;
  0; 0; 0; 0; 0; 0; 0; 56060399710476925900; 0; 0; 0; 0;
  0; 0; 0; 0; 0; 0; 0; 0; 0; 0; 0; 0;
  0; 0; -7474719961396923460; 0; 0; 0; 0; 0; 0; 0; 0; 0;
  0; 0; 0; 0; 0; 0; 0; 0; 0; 0; 0; 0;
  0; 113253332748438234; 0; 0; 0; 0; 0; 0; 0; 0; 0; 0;
  0; 0; 566266663742191171; 0; 0; -37373599806984617300; 0; 0; 0; 0; 0; 0;
  280301998552384630000; 0; 0; 0; 0; 0; 0; 0; 0; 0; 0; -523230397297784642000;
  0; 0; 0; 0; 0; 0; 0; 0; 0; 0; 0; 0;
  0; 0; 280301998552384630000; 0; 0; 0; 0; 0; 0; 0; 0; 0;
  0; 0; 0; 0; 0; 0; 0; 0; 0; -37373599806984617300; 0; 0;
  0; 0; 0; 0; 0; 0; 0; 0; 0; 0; 0; 0;
  0; 0; 0; 0; 0; 0; 0; 0; 566266663742191171; 0; 0; 0;
  0; 0; 0; 0; 0; 0; 0; 0; 0; 0; 0; 0;
  0; 0; 0; 0; 0; 0; 0; 0; 0; 0; 0; 0;
  0; 0; 0; 0; 0; 0; 0; 0; 0; 0; 0; 0;
  0; 0; 0; 0; 0; 0; 0; 0; 0; 0; 0; 0;
  0; 0; 0; 0; 0; 0; 0; 0; 0; 0; 0; 0;
  0; 0; 0; 0; 0; 0; 0; 0; 0; 0; 0; 0;
  0; 0; 0; 0; 0; 0; 0; 0; 0; 0; 0; 0;
  0; 0; 0; 0; 0; 0; 0; 0; 0; 0; 0; 0;
  0; 0; 0; 0].

(** cart2sph.c:813-2172 *)
Definition g_trans_cart2jR_dec : list Z :=
  g_trans_cart2jR_dec_0 ++
  g_trans_cart2jR_dec_1 ++
  g_trans_cart2jR_dec_2 ++
  g_trans_cart2jR_dec_3 ++
  g_trans_cart2jR_dec_4 ++
  g_trans_cart2jR_dec_5 ++
  g_trans_cart2jR_dec_6 ++
  g_trans_cart2jR_dec_7 ++
  g_trans_cart2jR_dec_8 ++
  g_trans_cart2jR_dec_9 ++
  g_trans_cart2jR_dec_10 ++
  g_trans_cart2jR_dec_11 ++
  g_trans_cart2jR_dec_12 ++
  g_trans_cart2jR_dec_13 ++
  g_trans_cart2jR_dec_14 ++
  g_trans_cart2jR_dec_15 ++
  g_trans_cart2jR_dec_16 ++
  g_trans_cart2jR_dec_17 ++
  g_trans_cart2jR_dec_18 ++
  g_trans_cart2jR_dec_19 ++
  g_trans_cart2jR_dec_20 ++
  g_trans_cart2jR_dec_21 ++
  g_trans_cart2jR_dec_22 ++
  g_trans_cart2jR_dec_23 ++
  g_trans_cart2jR_dec_24 ++
  g_trans_cart2jR_dec_25 ++
  g_trans_cart2jR_dec_26 ++
  g_trans_cart2jR_dec_27 ++
  g_trans_cart2jR_dec_28 ++
  g_trans_cart2jR_dec_29 ++
  g_trans_cart2jR_dec_30 ++
  g_trans_cart2jR_dec_31 ++
  g_trans_cart2jR_dec_32 ++
  g_trans_cart2jR_dec_33 ++
  g_trans_cart2jR_dec_34.
