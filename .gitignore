*.vo
*.vok
*.vos
*.glob
*.aux
.lia.cache
rocq/Makefile
rocq/Makefile.conf
rocq/.Makefile.d
