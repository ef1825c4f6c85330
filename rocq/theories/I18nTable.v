(** * Data: the keys of the translation tables and the keys the pages use
    Transcribed by a script from [mpp-front/src/lib/i18n/{en,es,eu}.json] and from
    every [k=], [loc(...)], [useI18n(...)], [...Key:] in [mpp-front/src].  No text in
    the tables is empty. *)
From Coq Require Import String List.
Import ListNotations.
Open Scope string_scope.
(** [lib/i18n/en.json]: keys, in order. *)
Definition keys_en : list string := [
  "title"; "words.documentation"; "words.loading"; "downloadingCode";
  "words.cancel"; "words.save"; "words.examples"; "words.continue";
  "appendedFin"; "checkDocs"; "setPCTo"; "areYouSure";
  "words.yes"; "words.no"; "pcSetted.title"; "pcSetted.description";
  "howToUseLabels.title"; "howToUseLabels.description.1"; "howToUseLabels.description.2"; "howToUseLabels.description.3";
  "credit"; "words.actions"; "words.coding"; "openEditor";
  "words.status"; "status.running"; "status.stopped"; "whatIsThis";
  "words.runProgram"; "words.runInstruction"; "words.runState"; "words.stop";
  "settings.title"; "settings.cycleTime"; "settings.memoryValueBase"; "settings.language";
  "settings.onboarding.on"; "settings.onboarding.off"; "settings.measureRunTime.on"; "settings.measureRunTime.off";
  "settings.cycleTimeZeroMsg"; "info.title"; "info.about.title"; "info.about.description";
  "info.technologies.title"; "info.tecnologies.react"; "info.tecnologies.react.description"; "info.tecnologies.webassembly";
  "info.tecnologies.webassembly.description"; "info.tecnologies.c"; "info.tecnologies.c.description"; "info.thirdParty.title";
  "info.thirdParty.antDesign"; "info.thirdParty.antDesign.description"; "info.thirdParty.reactFlow"; "info.thirdParty.reactFlow.description";
  "info.thirdParty.atomizeReact"; "info.thirdParty.atomizeReact.description"; "info.changelog.title"; "info.changelog.currentVersion";
  "info.changelog.commitHistory"; "rb.helpInfo"; "rc.helpInfo"; "rd.helpInfo";
  "re.helpInfo"; "acum.helpInfo"; "pc.helpInfo"; "sp.helpInfo";
  "ri.helpInfo"; "memory.helpInfo"; "flags.helpInfo"; "flags.fzHelpInfo";
  "flags.fcHelpInfo"; "transitionstate.label"; "debugger.label"; "flags.label";
  "clockCycleTime.label"; "alu.label"; "databus.label"; "registersBank.label";
  "rb.label"; "rc.label"; "rd.label"; "re.label";
  "acum.label"; "2op.label"; "pc.label"; "sp.label";
  "h.label"; "l.label"; "controlunit.label"; "ri.label";
  "state.label"; "memory.label"; "transitionstates.noStates"; "transitionstates.nextState";
  "transitionstates.executed"; "memory.reading"; "memory.writing"; "debugger.memoryRange";
  "debugger.operation"; "debugger.boundsPadding"; "tour.docs"; "tour.mainTable";
  "tour.coder"; "tour.runButtons"; "tour.settings"; "tour.info";
  "tour.openSource"; "status.runningTooLong"].
(** [lib/i18n/es.json]: keys, in order. *)
Definition keys_es : list string := [
  "title"; "words.documentation"; "words.loading"; "downloadingCode";
  "words.cancel"; "words.save"; "words.continue"; "words.examples";
  "appendedFin"; "checkDocs"; "setPCTo"; "areYouSure";
  "words.yes"; "words.no"; "pcSetted.title"; "pcSetted.description";
  "howToUseLabels.title"; "howToUseLabels.description.1"; "howToUseLabels.description.2"; "howToUseLabels.description.3";
  "credit"; "words.actions"; "words.coding"; "openEditor";
  "words.status"; "status.running"; "status.stopped"; "whatIsThis";
  "words.runProgram"; "words.runInstruction"; "words.runState"; "words.stop";
  "settings.title"; "settings.cycleTime"; "settings.memoryValueBase"; "settings.language";
  "settings.onboarding.on"; "settings.onboarding.off"; "settings.measureRunTime.on"; "settings.measureRunTime.off";
  "settings.cycleTimeZeroMsg"; "info.title"; "info.about.title"; "info.about.description";
  "info.technologies.title"; "info.tecnologies.react"; "info.tecnologies.react.description"; "info.tecnologies.webassembly";
  "info.tecnologies.webassembly.description"; "info.tecnologies.c"; "info.tecnologies.c.description"; "info.thirdParty.title";
  "info.thirdParty.antDesign"; "info.thirdParty.antDesign.description"; "info.thirdParty.reactFlow"; "info.thirdParty.reactFlow.description";
  "info.thirdParty.atomizeReact"; "info.thirdParty.atomizeReact.description"; "info.changelog.title"; "info.changelog.currentVersion";
  "info.changelog.commitHistory"; "rb.helpInfo"; "rc.helpInfo"; "rd.helpInfo";
  "re.helpInfo"; "acum.helpInfo"; "pc.helpInfo"; "sp.helpInfo";
  "ri.helpInfo"; "memory.helpInfo"; "flags.helpInfo"; "flags.fzHelpInfo";
  "flags.fcHelpInfo"; "transitionstate.label"; "debugger.label"; "flags.label";
  "clockCycleTime.label"; "alu.label"; "databus.label"; "registersBank.label";
  "rb.label"; "rc.label"; "rd.label"; "re.label";
  "acum.label"; "2op.label"; "pc.label"; "sp.label";
  "h.label"; "l.label"; "controlunit.label"; "ri.label";
  "state.label"; "memory.label"; "transitionstates.noStates"; "transitionstates.nextState";
  "transitionstates.executed"; "memory.reading"; "memory.writing"; "debugger.memoryRange";
  "debugger.operation"; "debugger.boundsPadding"; "tour.docs"; "tour.mainTable";
  "tour.coder"; "tour.runButtons"; "tour.settings"; "tour.info";
  "tour.openSource"; "status.runningTooLong"].
(** [lib/i18n/eu.json]: keys, in order. *)
Definition keys_eu : list string := [
  "title"; "words.documentation"; "words.loading"; "downloadingCode";
  "words.cancel"; "words.save"; "words.continue"; "words.examples";
  "appendedFin"; "checkDocs"; "setPCTo"; "areYouSure";
  "words.yes"; "words.no"; "pcSetted.title"; "pcSetted.description";
  "howToUseLabels.title"; "howToUseLabels.description.1"; "howToUseLabels.description.2"; "howToUseLabels.description.3";
  "credit"; "words.actions"; "words.coding"; "openEditor";
  "words.status"; "status.running"; "status.stopped"; "whatIsThis";
  "words.runProgram"; "words.runInstruction"; "words.runState"; "words.stop";
  "settings.title"; "settings.cycleTime"; "settings.memoryValueBase"; "settings.language";
  "settings.onboarding.on"; "settings.onboarding.off"; "settings.measureRunTime.on"; "settings.measureRunTime.off";
  "settings.cycleTimeZeroMsg"; "info.title"; "info.about.title"; "info.about.description";
  "info.technologies.title"; "info.tecnologies.react"; "info.tecnologies.react.description"; "info.tecnologies.webassembly";
  "info.tecnologies.webassembly.description"; "info.tecnologies.c"; "info.tecnologies.c.description"; "info.thirdParty.title";
  "info.thirdParty.antDesign"; "info.thirdParty.antDesign.description"; "info.thirdParty.reactFlow"; "info.thirdParty.reactFlow.description";
  "info.thirdParty.atomizeReact"; "info.thirdParty.atomizeReact.description"; "info.changelog.title"; "info.changelog.currentVersion";
  "info.changelog.commitHistory"; "rb.helpInfo"; "rc.helpInfo"; "rd.helpInfo";
  "re.helpInfo"; "acum.helpInfo"; "pc.helpInfo"; "sp.helpInfo";
  "ri.helpInfo"; "memory.helpInfo"; "flags.helpInfo"; "flags.fzHelpInfo";
  "flags.fcHelpInfo"; "transitionstate.label"; "debugger.label"; "flags.label";
  "clockCycleTime.label"; "alu.label"; "databus.label"; "registersBank.label";
  "rb.label"; "rc.label"; "rd.label"; "re.label";
  "acum.label"; "2op.label"; "pc.label"; "sp.label";
  "h.label"; "l.label"; "controlunit.label"; "ri.label";
  "state.label"; "memory.label"; "transitionstates.noStates"; "transitionstates.nextState";
  "transitionstates.executed"; "memory.reading"; "memory.writing"; "debugger.memoryRange";
  "debugger.operation"; "debugger.boundsPadding"; "tour.docs"; "tour.mainTable";
  "tour.coder"; "tour.runButtons"; "tour.settings"; "tour.info";
  "tour.openSource"; "status.runningTooLong"].
(** Keys used in the pages and components. *)
Definition keys_used : list string := [
  "2op.label"; "acum.helpInfo"; "acum.label"; "alu.label";
  "appendedFin"; "areYouSure"; "checkDocs"; "clockCycleTime.label";
  "controlunit.label"; "credit"; "databus.label"; "debugger.boundsPadding";
  "debugger.label"; "debugger.memoryRange"; "debugger.operation"; "downloadingCode";
  "flags.fcHelpInfo"; "flags.fzHelpInfo"; "flags.helpInfo"; "flags.label";
  "h.label"; "howToUseLabels.description.1"; "howToUseLabels.description.2"; "howToUseLabels.description.3";
  "howToUseLabels.title"; "info.about.description"; "info.about.title"; "info.changelog.commitHistory";
  "info.changelog.currentVersion"; "info.changelog.title"; "info.technologies.title"; "info.tecnologies.c";
  "info.tecnologies.c.description"; "info.tecnologies.react"; "info.tecnologies.react.description"; "info.tecnologies.webassembly";
  "info.tecnologies.webassembly.description"; "info.thirdParty.antDesign"; "info.thirdParty.antDesign.description"; "info.thirdParty.atomizeReact";
  "info.thirdParty.atomizeReact.description"; "info.thirdParty.reactFlow"; "info.thirdParty.reactFlow.description"; "info.thirdParty.title";
  "info.title"; "l.label"; "memory.helpInfo"; "memory.label";
  "memory.reading"; "memory.writting"; "openEditor"; "pc.helpInfo";
  "pc.label"; "pcSetted.description"; "pcSetted.title"; "rb.helpInfo";
  "rb.label"; "rc.helpInfo"; "rc.label"; "rd.helpInfo";
  "rd.label"; "re.helpInfo"; "re.label"; "registersBank.label";
  "ri.helpInfo"; "ri.label"; "setPCTo"; "settings.cycleTime";
  "settings.cycleTimeZeroMsg"; "settings.language"; "settings.measureRunTime.off"; "settings.measureRunTime.on";
  "settings.memoryValueBase"; "settings.onboarding.off"; "settings.onboarding.on"; "settings.title";
  "sp.helpInfo"; "sp.label"; "state.label"; "status.running";
  "status.runningTooLong"; "status.stopped"; "title"; "tour.coder";
  "tour.docs"; "tour.info"; "tour.mainTable"; "tour.openSource";
  "tour.runButtons"; "tour.settings"; "transitionstate.label"; "transitionstates.executed";
  "transitionstates.nextState"; "transitionstates.noStates"; "whatIsThis"; "words.actions";
  "words.cancel"; "words.coding"; "words.continue"; "words.documentation";
  "words.examples"; "words.loading"; "words.no"; "words.runInstruction";
  "words.runProgram"; "words.runState"; "words.save"; "words.status";
  "words.stop"; "words.yes"].
