*.vo
*.vos
*.vok
*.glob
*.aux
.*.aux
*.d
.lia.cache
.nia.cache
.nra.cache
.lra.cache
rocq/Makefile
rocq/Makefile.conf
rocq/.Makefile.d
