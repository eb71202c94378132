rocq/Makefile*
rocq/.Makefile*
rocq/**/*.vo
rocq/**/*.vok
rocq/**/*.vos
rocq/**/*.glob
rocq/**/.*.aux
rocq/.lia.cache
rocq/.nia.cache
*.pyc
*.cache
